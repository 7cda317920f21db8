{"id": "C01", "title": "CDF write/read round trip of variable values", "statement": "If a CDF writer accepts a sequence of AddAttributes/AddVar calls and Close returns without error, then opening the produced bytes succeeds and GetVariable on every added variable returns exactly the values that were added (strings of a string array come back padded with NUL to the longest string of the array). Preconditions a caller must meet: values are rectangular, no dimension has length zero, variable names are distinct, names contain no NUL, sizes fit the 32-bit (version 2) or 64-bit (version 5) header fields, at most 1024 dimensions, and CDF-5 typed global attributes are only used when some variable already forces CDF-5.", "quantifier": "every finite history of AddAttributes and AddVar calls; every supported element type, rank, shape, attribute map and variable name", "why_tests_cant": "The file layout depends on all variables together (offsets, padding, version); tests exercise a handful of shapes.", "anchors": ["netcdf/cdf/cdfwriter.go: AddVar, writeAll, writeVar, writeData, storeChars, storeBytes, storeInts, storeDoubles", "netcdf/cdf/cdf.go: readHeader, getVar, getVarCommon, convert"]}
{"id": "C02", "title": "CDF attribute round trip", "statement": "Global attributes and per-variable attributes written by the CDF writer are returned by Attributes()/GetVariable().Attributes with the same keys in the same order and the same values, except that a slice of length one comes back as a scalar, for every attribute value type the writer accepts.", "quantifier": "every ordered attribute map over the accepted attribute types and every value of those types, in both the version-2 and version-5 encodings", "why_tests_cant": "Padding of each value depends on its length modulo 4 and on its type; the encodings of different types share code paths and sizes that must agree byte for byte.", "anchors": ["netcdf/cdf/cdfwriter.go: writeAttributes, computeAttributeSize, pad", "netcdf/cdf/cdf.go: getAttr, getAttrList", "netcdf/util/orderedmap.go: NewOrderedMap"]}
{"id": "C03", "title": "CDF listing and dimensions round trip", "statement": "After a successful write, ListVariables returns the variable names in the order they were added, ListDimensions returns each dimension name once in order of first use, GetDimension returns the length it was first used with, and GetVariable(...).Dimensions returns the names the caller gave (or the generated names where the caller gave none).", "quantifier": "every history of accepted AddVar calls satisfying the preconditions of C01", "why_tests_cant": "Dimension ids are assigned across calls; the property relates whole histories.", "anchors": ["netcdf/cdf/cdfwriter.go: AddVar, writeVar, writeAll", "netcdf/cdf/cdf.go: readHeader, getVarCommon, ListVariables, ListDimensions, GetDimension"]}
{"id": "C04", "title": "CDF dimension registry stays consistent", "statement": "At every point of any history of AddVar calls, accepted or rejected, each dimension name known to the writer has exactly one length and one id, ids are the consecutive numbers in order of first use, and every accepted variable's extents equal the registered lengths of its dimensions. A call whose extent disagrees with the registered length returns ErrDimensionSize and its variable is not added.", "quantifier": "every history of AddVar calls, including failing ones, of any length", "why_tests_cant": "It is an invariant over unbounded call histories including the error path.", "anchors": ["netcdf/cdf/cdfwriter.go: AddVar, getDimLengthsHelper"]}
{"id": "C05", "title": "CDF recorded offsets are the true data positions", "statement": "In a file produced under the preconditions of C01, the offset recorded in the header for each variable is exactly the position of its first data byte, is a multiple of four, the regions of different variables are disjoint and appear in the order the variables were added, and the last region ends at the end of the file.", "quantifier": "every history of accepted calls satisfying the preconditions", "why_tests_cant": "Offsets are predicted by a separate size computation before the header is emitted; equality for all name lengths, ranks, attribute sets and types cannot be enumerated.", "anchors": ["netcdf/cdf/cdfwriter.go: computeVarSize, computeAttributeSize, writeVar, writeData, pad, writeAll"]}
{"id": "C06", "title": "CDF version selection", "statement": "The version byte of a written file is 5 exactly when some accepted or attempted variable, or variable attribute, used a type that only CDF-5 has (unsigned or 64-bit integers), otherwise 2; and no file whose version byte is 2 contains a CDF-5-only type code.", "quantifier": "every history of calls", "why_tests_cant": "The version is a sticky side effect of several code paths (including global attributes, which are checked too late).", "anchors": ["netcdf/cdf/cdfwriter.go: scalarKind, checkV5Attributes, AddVar, writeAll, AddAttributes", "netcdf/cdf/cdf.go: checkVersion"]}
{"id": "C07", "title": "Adding a zero-length variable does not disturb other variables", "statement": "Adding a variable whose only dimension has length zero never changes what is read back for any other variable.", "quantifier": "every history of AddVar calls containing zero-length one-dimensional slices or empty strings", "why_tests_cant": "Needs the interaction of one variable's declared size with the placement of all later ones.", "anchors": ["netcdf/cdf/cdfwriter.go: writeVar, writeData, getDimLengthsHelper"]}
{"id": "C08", "title": "CDF AddVar failure is atomic", "statement": "If AddVar returns an error, the writer behaves afterwards exactly as if the call had not been made.", "quantifier": "every writer state reachable by calls and every failing AddVar call", "why_tests_cant": "Equivalence of all future behaviours after an error is not a finite set of cases.", "anchors": ["netcdf/cdf/cdfwriter.go: AddVar, checkV5Attributes, getDimLengthsHelper, scalarKind"]}
{"id": "C09", "title": "Accepted writes are readable (CDF)", "statement": "If every AddVar/AddAttributes call was accepted and Close succeeded, the resulting file can be opened.", "quantifier": "every history of accepted calls", "why_tests_cant": "Acceptance is checked per call but readability is a property of the whole file (e.g. duplicate names are accepted one by one).", "anchors": ["netcdf/cdf/cdfwriter.go: AddVar, Close", "netcdf/cdf/cdf.go: readHeader"]}
{"id": "C10", "title": "CDF reader rejects duplicate names", "statement": "Opening a file whose header lists two variables of the same name fails with ErrDuplicateVariable or an earlier error and never returns a group; a file whose attribute list contains the same key twice is rejected likewise.", "quantifier": "every byte sequence offered as a file", "why_tests_cant": "Quantifies over all files.", "anchors": ["netcdf/cdf/cdf.go: readHeader, getAttrList", "netcdf/util/orderedmap.go: NewOrderedMap"]}
{"id": "C11", "title": "Opening arbitrary bytes as CDF terminates with a group or an error", "statement": "Opening any byte sequence as a CDF file returns either a group or an error; it never crashes the process with a runtime panic.", "quantifier": "every byte sequence", "why_tests_cant": "The input space is all byte strings.", "anchors": ["netcdf/cdf/cdf.go: New, readHeader, getVar, hasUnlimitedDimension, readName, getAttr"]}
{"id": "C12", "title": "CDF GetSlice equals the slice of the whole (fixed-size variables)", "statement": "For a variable without unlimited dimension and 0 <= b <= e <= Len(), GetSlice(b,e) returns exactly Values()[b:e], for every file that can be opened.", "quantifier": "every openable file, every fixed-size variable, every pair of bounds in range", "why_tests_cant": "All ranks, types, bounds and file contents, including files shorter than declared.", "anchors": ["netcdf/cdf/cdf.go: getVarCommon", "internal/slicer.go: GetSlice, Values"]}
{"id": "C13", "title": "GetSliceMD equals the sub-box of the whole", "statement": "For in-range bounds, GetSliceMD(begin,end) on a CDF variable of rank at least one returns the elements of Values() at exactly the index tuples in the box [begin,end), in row-major order, with shape end-begin (for char variables the last dimension is not cut, because it is a string).", "quantifier": "every shape of positive rank, every in-range box, every data", "why_tests_cant": "Combinatorially many boxes and ranks.", "anchors": ["internal/slicer.go: SliceMD, sliceRecursive", "netcdf/cdf/cdf.go: getVarCommon"]}
{"id": "C14", "title": "Slice bounds are checked", "statement": "GetSlice and GetSliceMD return an error when end < begin, and also when the range is not contained in [0, Len()].", "quantifier": "every variable, every pair of int64 bounds", "why_tests_cant": "Bounds range over all int64 pairs.", "anchors": ["netcdf/cdf/cdf.go: getVarCommon", "netcdf/hdf5/hdf5.go: GetVarGetter"]}
{"id": "C15", "title": "Missing CDF data reads as fill values", "statement": "For a fixed-size CDF variable whose stored region is cut short by the end of the file at an element boundary, the elements present are returned unchanged and every missing element equals the variable's fill value (the _FillValue attribute if present, else the netCDF default for the type).", "quantifier": "every file, every truncation point, every type and fill value", "why_tests_cant": "All truncation points and chunkings of the underlying reader.", "anchors": ["netcdf/cdf/cdf.go: makeFillValueReader, getVarCommon", "internal/fillvalue.go: FillValueReader.Read"]}
{"id": "C16", "title": "CDF record variables are gathered from interleaved records", "statement": "For a file with record variables, GetVariable of a record variable returns the concatenation over records r of the variable's bytes stored at its offset plus r times the record size, decoded and shaped with numrecs as first dimension; a lone byte, char or short record variable is stored without record padding.", "quantifier": "every openable file with an unlimited dimension, any number of record variables and records", "why_tests_cant": "Interleavings of record layouts are unbounded.", "anchors": ["netcdf/cdf/cdf.go: readHeader, getVar, newRecordReader, getVarCommon"]}
{"id": "C17", "title": "CDF GetSlice on record variables", "statement": "For a record variable and 0 <= b <= e <= numrecs, GetSlice(b,e) returns records b..e-1.", "quantifier": "every record file and every in-range pair of bounds", "why_tests_cant": "All record counts and bounds.", "anchors": ["netcdf/cdf/cdf.go: newRecordReader, getVarCommon"]}
{"id": "C18", "title": "Ordered map behaves as an insertion-ordered map", "statement": "NewOrderedMap succeeds exactly when the key list enumerates the map's keys without repetition; then Keys() is that list minus hidden keys in order, Get returns the associated value (also for hidden keys), Add of a new key appends it, Hide removes a key from Keys() only.", "quantifier": "every sequence of Add, Hide, Get, Keys operations from every initial map", "why_tests_cant": "Histories are unbounded.", "anchors": ["netcdf/util/orderedmap.go: NewOrderedMap, Add, Get, Hide, Keys"]}
{"id": "C19", "title": "Re-adding a key keeps Keys() duplicate free", "statement": "After any sequence of Add and Hide, Keys() contains each key at most once.", "quantifier": "every sequence of Add and Hide operations", "why_tests_cant": "Unbounded histories.", "anchors": ["netcdf/util/orderedmap.go: Add, Hide, Keys"]}
{"id": "C20", "title": "CDF reference counting closes the file exactly once", "statement": "Over any interleaving of successful and failing GetGroup calls and Close calls, the underlying file is closed exactly when the number of Close calls first reaches one plus the number of successful GetGroup calls, and it is never closed twice and never before.", "quantifier": "every finite sequence of GetGroup/Close calls", "why_tests_cant": "Unbounded call histories.", "anchors": ["netcdf/cdf/cdf.go: Close, GetGroup, New"]}
{"id": "C21", "title": "Fill stream is independent of read sizes", "statement": "Reading n bytes in total from a fill-value reader through any partition into Read calls yields the first n bytes of the endlessly repeated pattern.", "quantifier": "every non-empty pattern and every sequence of read sizes", "why_tests_cant": "All partitions of all lengths.", "anchors": ["internal/fillvalue.go: FillValueReader.Read"]}
{"id": "C22", "title": "Name validity", "statement": "IsValidNetCDFName accepts exactly the names that are non-empty, start with a letter or digit, contain no control character and no slash, and do not end in a separator; every variable and attribute name accepted by either writer satisfies this, and such a name survives the CDF name encoding unchanged.", "quantifier": "every string", "why_tests_cant": "All strings.", "anchors": ["internal/validname.go: IsValidNetCDFName", "netcdf/cdf/cdfwriter.go: AddVar, AddAttributes, hasValidNames, writeName", "netcdf/cdf/cdf.go: readName", "netcdf/hdf5/hdf5writer.go: AddVar, AddAttributes, CreateGroup"]}
{"id": "C23", "title": "File kind dispatch", "statement": "netcdf.Open/New never accepts a file that neither format accepts: a first byte 'C' is offered only to the CDF reader, 0x89 only to the HDF5 reader, and anything else (including an empty file) fails with ErrUnknown; files produced by either writer are dispatched to the matching reader.", "quantifier": "every byte sequence", "why_tests_cant": "All files.", "anchors": ["netcdf/netcdf4.go: Open, New, getKind", "netcdf/cdf/cdfwriter.go: writeAll", "netcdf/hdf5/hdf5writer.go: writeSuperblockV2"]}
{"id": "C24", "title": "Row-major reconstruction", "statement": "Turning the flat data of a variable into nested slices is the row-major reconstruction for every rank: element (i1,...,in) of the result is element ((i1*d2+i2)*d3+...)+in of the data, and the specialised code for ranks 0, 1 and 2 agrees with the general code.", "quantifier": "every rank, shape and data of matching size", "why_tests_cant": "Ranks and shapes are unbounded.", "anchors": ["netcdf/cdf/cdf.go: convert, emptySlice"]}
{"id": "C25", "title": "A truncated CDF file is detected", "statement": "Opening a strict prefix of a file produced by the CDF writer (a crash during Close) never yields variables whose values silently differ from those written: either the open fails, or reading fails, or the values are those written.", "quantifier": "every written file and every crash point (strict prefix)", "why_tests_cant": "Every crash point of every file.", "anchors": ["netcdf/cdf/cdf.go: readHeader, getVarCommon, makeFillValueReader", "netcdf/cdf/cdfwriter.go: Close, writeAll"]}
{"id": "C26", "title": "A truncated HDF5 file is rejected", "statement": "Opening any strict prefix of a file produced by the HDF5 writer fails with an error.", "quantifier": "every written file and every strict prefix", "why_tests_cant": "Every crash point of every file.", "anchors": ["netcdf/hdf5/hdf5writer.go: Close, writeSuperblockV2", "netcdf/hdf5/hdf5.go: readSuperblock, New"]}
{"id": "C27", "title": "HDF5 metadata checksum agreement", "statement": "The checksum the writer stores over a block is exactly the one the reader recomputes from the stream, for blocks of every length, so every block written passes verification; and a block whose stored checksum differs from the recomputed one is rejected.", "quantifier": "every byte string of every length", "why_tests_cant": "All lengths modulo 12 and 4 and all contents.", "anchors": ["netcdf/hdf5/checksum.go: checksum, hashInts", "netcdf/hdf5/hdf5.go: computeChecksumStream, checkChecksum"]}
{"id": "C28", "title": "HDF5 superblock round trip", "statement": "The superblock emitted by the writer is accepted by the reader and yields the root address written, for every file size and root address below 2^63.", "quantifier": "every end-of-file and root address", "why_tests_cant": "64-bit value space.", "anchors": ["netcdf/hdf5/hdf5writer.go: writeSuperblockV2, Close", "netcdf/hdf5/hdf5.go: readSuperblock"]}
{"id": "C29", "title": "HDF5 object header round trip", "statement": "Reading back an object header written by the HDF5 writer yields exactly the list of messages written (plus ignorable padding), for every list of messages whose individual sizes fit 16 bits, and the header's checksum verifies.", "quantifier": "every list of messages with arbitrary types and contents", "why_tests_cant": "Padding depends on total size modulo 8; lists are unbounded.", "anchors": ["netcdf/hdf5/hdf5writer.go: writeObjectHeaderV2", "netcdf/hdf5/hdf5.go: readDataObjectHeaderV2, readCommon"]}
{"id": "C30", "title": "HDF5 link names round trip", "statement": "A link message built for a child of a group is read back with the same name and address, for every name of fewer than 256 bytes.", "quantifier": "every byte string name and address", "why_tests_cant": "All names; names of 256 bytes or more hit a one-byte length field.", "anchors": ["netcdf/hdf5/hdf5writer.go: buildLinkMessage", "netcdf/hdf5/hdf5.go: readLinkDirectFrom, readCommon"]}
{"id": "C31", "title": "HDF5 dataspace and layout messages round trip", "statement": "The shape and the data location encoded for a variable are decoded to the same shape and location for every rank up to 255 and every extent.", "quantifier": "every shape and address", "why_tests_cant": "Unbounded shapes.", "anchors": ["netcdf/hdf5/writer_utils.go: buildDataspaceMessage", "netcdf/hdf5/hdf5writer.go: buildLayoutMessageV2", "netcdf/hdf5/hdf5.go: readDataspace, readDataLayout"]}
{"id": "C32", "title": "HDF5 datatype messages round trip", "statement": "The datatype message emitted for each supported Go element type is parsed by the reader to a type description that makes the reader return that same Go type (kind, width, signedness, byte order, string length, vlen element, compound members with names and offsets, enum members).", "quantifier": "every supported type, including arbitrary compound, enum and vlen nestings", "why_tests_cant": "Recursive type language.", "anchors": ["netcdf/hdf5/writer_utils.go: buildDatatypeMessage, buildFixedPointDatatype, buildFloatingPointDatatype, buildStringDatatype, buildCompoundDatatype, buildEnumDatatype, buildVlenSequenceDatatype", "netcdf/hdf5/types.go: printDatatype", "netcdf/hdf5/compound.go: parse", "netcdf/hdf5/enum.go: parse", "netcdf/hdf5/fixedPoint.go: parse", "netcdf/hdf5/floatingPoint.go: parse"]}
{"id": "C33", "title": "HDF5 global heap round trip", "statement": "Every object put in the writer's global heap (string, variable-length sequence or dimension reference) is found by the reader under the index it was given, with the same bytes, provided it is non-empty and there are at most 65535 objects.", "quantifier": "every list of byte strings", "why_tests_cant": "Heap indexes depend on all earlier objects; padding on sizes modulo 8.", "anchors": ["netcdf/hdf5/hdf5writer.go: writeGlobalHeap, addStringToHeap", "netcdf/hdf5/hdf5.go: readGlobalHeap"]}
{"id": "C34", "title": "HDF5 variable data round trip", "statement": "The contiguous data written for a numeric variable of any rank and the reader's decoding of it are inverse, for all element types and both byte orders of the host.", "quantifier": "every rectangular numeric array", "why_tests_cant": "Ranks, shapes, values.", "anchors": ["netcdf/hdf5/hdf5writer.go: writeDataVar, writeDataRecursive", "netcdf/hdf5/fixedPoint.go: allocInt8s, allocShorts, allocInts, allocInt64s", "netcdf/hdf5/floatingPoint.go: allocFloats, allocDoubles"]}
{"id": "C35", "title": "HDF5 writer histories behave as a tree of maps", "statement": "After any history of CreateGroup, AddVar and AddAttributes calls through any of the writers obtained, the content to be written is the tree in which CreateGroup is idempotent, the last AddVar for a name in a group wins, and the last AddAttributes for a group wins; rejected calls change nothing.", "quantifier": "every history of calls on the root writer and all group writers obtained from it", "why_tests_cant": "Unbounded histories with aliasing group handles.", "anchors": ["netcdf/hdf5/hdf5writer.go: AddVar, AddAttributes, CreateGroup, groupWriter"]}
{"id": "C36", "title": "HDF5 writer Close is idempotent", "statement": "A second Close on an HDF5 writer returns nil and does not change the file; closing a group writer never changes anything.", "quantifier": "every history of calls containing several Close calls", "why_tests_cant": "Histories.", "anchors": ["netcdf/hdf5/hdf5writer.go: Close, groupWriter.Close"]}
{"id": "C37", "title": "Unshuffle inverts the HDF5 shuffle filter", "statement": "Reading through the shuffle filter returns the original bytes for every element size and every buffer, whatever sizes the consumer reads.", "quantifier": "every element size, every buffer, every sequence of read sizes", "why_tests_cant": "All lengths, element sizes and partitions.", "anchors": ["netcdf/hdf5/readers.go: unshuffle, unshuffleReader.Read"]}
{"id": "C38", "title": "Fletcher32 verification is independent of read sizes", "statement": "Reading a checksummed chunk through any sequence of reads that ends exactly at the data's end delivers the data unchanged if the stored checksum is the one computed by the HDF5 library, and fails with ErrFletcherChecksum if it is not.", "quantifier": "every data, every stored checksum and every partition into reads", "why_tests_cant": "All partitions (odd splits carry a partial byte) and all data (sums that are multiples of 65535).", "anchors": ["netcdf/hdf5/readers.go: fletcher.Read, fletcher32Reader"]}
{"id": "C39", "title": "Chunked HDF5 data is reassembled in row-major order", "statement": "Reading a chunked dataset whose chunks do not tile it trivially delivers the elements in row-major order of the dataset, whatever read sizes are used.", "quantifier": "every rank, dataset shape, chunk shape, element size and read partition", "why_tests_cant": "Shapes x chunk shapes x partitions.", "anchors": ["netcdf/hdf5/readers.go: layoutReader.fillrow, layoutReader.Read, calculateFlatOffset", "netcdf/hdf5/hdf5.go: needsLayoutReader"]}
{"id": "C40", "title": "Chunk placement is unambiguous", "statement": "Distinct chunks of a dataset are placed at distinct, non-overlapping positions in the logical stream, in lexicographic order of chunk coordinates, and all fit in the size reserved for the dataset.", "quantifier": "every rank, dataset shape, chunk shape and pair of chunk coordinates", "why_tests_cant": "Unbounded shapes.", "anchors": ["netcdf/hdf5/readers.go: calculateFlatOffset, calcAttrSize, calcChunkSize"]}
{"id": "C41", "title": "Partially allocated data reads as data plus fill", "statement": "The logical byte stream of a dataset equals, at every position covered by a stored block, that block's byte, and at every other position the corresponding byte of the repeated fill pattern starting at the hole.", "quantifier": "every set of non-overlapping stored blocks in any order, and every size", "why_tests_cant": "All block subsets and orders.", "anchors": ["netcdf/hdf5/hdf5.go: newRecordReader, makeFillValueReader", "netcdf/hdf5/segment.go: segments"]}
{"id": "C42", "title": "Chunk index pruning never loses data", "statement": "When only a range of the first dimension is requested from a dataset whose chunks are contiguous runs of the row-major order, no chunk that intersects the requested byte range is skipped by the index walk.", "quantifier": "every index tree with ordered keys, every requested range", "why_tests_cant": "All trees and ranges.", "anchors": ["netcdf/hdf5/hdf5.go: readBTreeNodeAny, calculateFlatOffsetFromKeys"]}
{"id": "C43", "title": "HDF5 reads do not depend on earlier slice requests", "statement": "GetVariable and GetSlice on an HDF5 group return the same result whatever GetSlice or GetSliceMD calls were made before on the same variable.", "quantifier": "every history of read calls", "why_tests_cant": "Histories of calls with shared state.", "anchors": ["netcdf/hdf5/hdf5.go: GetVarGetter, GetVariable, getData"]}
{"id": "C44", "title": "HDF5 GetSlice equals the slice of the whole (contiguous data)", "statement": "For a contiguous HDF5 variable of rank at least one and 0 <= b <= e <= Len(), GetSlice(b,e) on a freshly opened variable returns exactly Values()[b:e].", "quantifier": "every contiguous variable and all in-range bounds", "why_tests_cant": "All shapes and bounds.", "anchors": ["netcdf/hdf5/hdf5.go: GetVarGetter, getData, newRecordReader"]}
{"id": "C45", "title": "HDF5 GetSlice on chunked data", "statement": "For a chunked HDF5 variable whose data needs reassembly and 0 <= b <= e <= Len(), GetSlice(b,e) returns exactly Values()[b:e].", "quantifier": "every chunked variable and all in-range bounds", "why_tests_cant": "All shapes, chunk shapes and bounds.", "anchors": ["netcdf/hdf5/hdf5.go: GetVarGetter, getData, newRecordReader, needsLayoutReader"]}
{"id": "C46", "title": "HDF5 reference counting", "statement": "The file behind an HDF5 group is closed exactly when every group handle obtained from it has been closed; closing a handle twice is harmless.", "quantifier": "every sequence of GetGroup and Close calls on all handles", "why_tests_cant": "Unbounded histories and many handles.", "anchors": ["netcdf/hdf5/readers.go: dup, reference, dereference, raFile.Close", "netcdf/hdf5/hdf5.go: GetGroup, Close"]}
{"id": "C47", "title": "Concurrent reads through different handles are independent", "statement": "If several handles (goroutines) read the same file concurrently, each Read returns the bytes at that handle's own position, for every interleaving of their locked read operations.", "quantifier": "every schedule of Read/ReadAt operations over any number of handles", "why_tests_cant": "All schedules.", "anchors": ["netcdf/hdf5/readers.go: raFile.Read, ReadAt, readNoLock"]}
{"id": "C48", "title": "Concurrent GetGroup keeps the reference count right", "statement": "If several goroutines call GetGroup concurrently, the reference count afterwards equals one plus the number of handles.", "quantifier": "every schedule of the reads and writes of the counter", "why_tests_cant": "All schedules.", "anchors": ["netcdf/hdf5/readers.go: reference, dereference, dup"]}
{"id": "C49", "title": "Group path resolution", "statement": "GetGroup(path) depends only on the non-empty components of the path and whether it starts with a slash, returns the group reached by following exactly those components, and fails with ErrNotFound if some component is missing or is not a group.", "quantifier": "every group tree and every path string", "why_tests_cant": "All strings and trees.", "anchors": ["netcdf/hdf5/hdf5.go: canonicalizePath, GetGroup"]}
{"id": "C50", "title": "HDF5 whole-file round trip", "statement": "If the HDF5 writer accepts a history of calls describing a tree of groups with numeric, string, compound, enumeration and opaque variables and attributes and variables of sequences of varying length, and Close succeeds, then opening the file yields the same tree: the same groups, variables, values, attributes and dimension names.", "quantifier": "every accepted history meeting stated size limits", "why_tests_cant": "The file is a graph of addresses computed while writing; agreement for all trees cannot be enumerated.", "anchors": ["netcdf/hdf5/hdf5writer.go: Close and callees", "netcdf/hdf5/hdf5.go: New, GetGroup, GetVariable, Attributes, ListVariables"]}
{"id": "C51", "title": "Dimension scales are hidden, coordinate variables are not", "statement": "ListVariables never lists a dimension created only to carry a dimension name, always lists a coordinate variable (a variable named like its dimension), and ListDimensions lists both.", "quantifier": "every set of variables and dimension names written", "why_tests_cant": "All name sets.", "anchors": ["netcdf/hdf5/hdf5.go: classifyObject, isDimensionScale, findVariable, ListVariables, ListDimensions", "netcdf/hdf5/hdf5writer.go: createDimensionScales"]}
{"id": "C52", "title": "Variable-width integer encoding round trip", "statement": "Integers encoded with the writer's variable-width encoder are decoded to the same value by the reader's decoder at the same width whenever they fit, and the width chosen by the writer for compound member offsets is the width the reader assumes.", "quantifier": "every value and width", "why_tests_cant": "64-bit value space.", "anchors": ["netcdf/hdf5/writer_utils.go: writeEnc, calcFieldSize, buildCompoundDatatype", "netcdf/hdf5/hdf5.go: readEnc", "netcdf/hdf5/compound.go: parse"]}
{"id": "C53", "title": "Readers never invent variables: CDF unknown names", "statement": "GetVariable and GetVarGetter return ErrNotFound for every name not in ListVariables, and never ErrNotFound for a name in it; GetDimension reports exactly the names in ListDimensions.", "quantifier": "every openable file and every name", "why_tests_cant": "All files and names.", "anchors": ["netcdf/cdf/cdf.go: getVarCommon, GetVariable, GetVarGetter, GetDimension"]}
{"id": "C54", "title": "Truncated CDF headers never open", "statement": "If the header of a CDF file (everything before the first data byte) is cut anywhere, opening fails with an error.", "quantifier": "every file produced by the CDF writer and every cut inside its header", "why_tests_cant": "Every crash point inside the header.", "anchors": ["netcdf/cdf/cdf.go: readHeader", "netcdf/util/binary.go: MustReadBE"]}
{"id": "C55", "title": "CDF data is a function of the calls, not of Go map order", "statement": "Two CDF writers given the same calls produce byte-identical files.", "quantifier": "every history of calls and every iteration order Go may choose for maps", "why_tests_cant": "Map iteration order is chosen at random by the runtime.", "anchors": ["netcdf/cdf/cdfwriter.go: writeAll, AddVar"]}
{"id": "C56", "title": "Accepted CDF calls can be written out", "statement": "If every AddAttributes and AddVar call on a CDF writer returned nil, then Close returns nil (on a device that accepts all writes) and no data is lost.", "quantifier": "every history of accepted calls", "why_tests_cant": "Acceptance is decided per call while failure surfaces only in Close; all value/attribute combinations matter.", "anchors": ["netcdf/cdf/cdfwriter.go: AddVar, checkV5Attributes, AddAttributes, writeAttributes, writeVar, Close"]}
{"id": "C57", "title": "CDF calls never crash", "statement": "AddVar, AddAttributes and Close of the CDF writer return an error for values they cannot represent; they never crash the process.", "quantifier": "every Go value passed as variable or attribute value", "why_tests_cant": "All dynamic types and values.", "anchors": ["netcdf/cdf/cdfwriter.go: getDimLengthsHelper, storeBytes, AddVar"]}
{"id": "C58", "title": "Conforming CDF files are read as the format says", "statement": "Every file whose header follows the published grammar of the classic netCDF format (versions 1, 2 and 5, any padding bytes, absent lists written either way, distinct names) opens, and ListVariables, ListDimensions, GetDimension, Attributes, and each variable's dimension names, shape and attributes are exactly what the header says, an unlimited dimension counting as many entries as there are records.", "quantifier": "every conforming header and every data part", "why_tests_cant": "The grammar generates infinitely many headers; third-party writers choose other encodings than this writer.", "anchors": ["netcdf/cdf/cdf.go: readHeader, getNElems, getAttr, getDim, getVar, getVarCommon"]}
{"id": "C59", "title": "Written CDF files conform to the published format", "statement": "Every file the CDF writer produces under the preconditions of C01 whose variables fit the size field starts with a header generated by the published grammar of the format, with the version, dimensions and variables of the calls, no record variable, and CDF-5-only types only in version 5.", "quantifier": "every history of calls meeting the preconditions", "why_tests_cant": "Other netCDF implementations must be able to read the file; all histories matter.", "anchors": ["netcdf/cdf/cdfwriter.go: writeAll, writePrologue, writeAttributes, writeVar"]}
{"id": "C60", "title": "Shuffled and checksummed chunks are read back", "statement": "A chunk stored through the shuffle filter and then the fletcher32 filter is read back through both as the original data, however the storage below partitions its reads.", "quantifier": "every data of every element size, every partition of the underlying reads", "why_tests_cant": "Errors depend on the parity of lengths and on where reads happen to end.", "anchors": ["netcdf/hdf5/hdf5.go: newUnshuffleReader, newFletcher32Reader, readAll"]}
{"id": "C61", "title": "Files of the classic versions carry only classic types", "statement": "In an opened CDF file of version 1 or 2 every attribute value and every variable has one of the types of the classic format; types that exist only in version 5 are rejected.", "quantifier": "every byte sequence that opens", "why_tests_cant": "All headers, including those no conforming writer produces.", "anchors": ["netcdf/cdf/cdf.go: checkVersion, getAttr, getVar"]}
{"id": "C62", "title": "A Close of the HDF5 writer that returns nil means the file is written", "statement": "If Close of the HDF5 writer returns nil, the file holds the tree described by the calls.", "quantifier": "every history of calls on the HDF5 writer", "why_tests_cant": "Histories with failing calls.", "anchors": ["netcdf/hdf5/hdf5writer.go: Close"]}
{"id": "C63", "title": "HDF5 GetSlice on chunks that are runs", "statement": "For a chunked HDF5 variable whose chunks are runs of the row-major order, with any index and any of its chunks missing, and 0 <= b <= e <= Len(), GetSlice(b,e) on a freshly opened variable returns exactly Values()[b:e], and Values() returns what GetVariable returns.", "quantifier": "every such variable, every index tree with ordered keys, all in-range bounds", "why_tests_cant": "The index is pruned by byte ranges; all trees, ranges and sets of missing chunks matter.", "anchors": ["netcdf/hdf5/hdf5.go: GetVarGetter, getData, newRecordReader, readBTreeNodeAny"]}
{"id": "C64", "title": "Chunked HDF5 variables read as the dataset", "statement": "The values of a chunked HDF5 variable whose chunks need reassembly are those of the dataset in row-major order, elements of missing chunks being the fill value.", "quantifier": "every shape, chunk shape, index tree and set of missing chunks", "why_tests_cant": "Combines the index, the order of blocks, holes and the reassembly.", "anchors": ["netcdf/hdf5/hdf5.go: getData, newRecordReader", "netcdf/hdf5/readers.go: newLayoutReader"]}
{"id": "C65", "title": "HDF5 GetSliceMD equals the restriction of the whole", "statement": "For an HDF5 variable of rank at least one and bounds within its shape, GetSliceMD on a freshly opened variable returns an array of the requested shape whose element at every index is the element of GetVariable at that index plus the lower bounds.", "quantifier": "every variable and all in-range bounds", "why_tests_cant": "All shapes and bounds in all dimensions.", "anchors": ["netcdf/hdf5/hdf5.go: GetVarGetter", "internal/slicer.go: SliceMD, sliceRecursive"]}
{"id": "C66", "title": "Dimension lengths in a written HDF5 file", "statement": "After a history of calls that the HDF5 writer accepted and a successful Close, GetDimension on the root of the file returns, for every dimension name, the length along that dimension of every variable that has it, and reports every other name as absent.", "quantifier": "every accepted history meeting stated size limits", "why_tests_cant": "All combinations of variables that share dimensions, in all groups.", "anchors": ["netcdf/hdf5/hdf5writer.go: createDimensionScales, collectDimensions", "netcdf/hdf5/hdf5.go: GetDimension, ListDimensions"]}
{"id": "C67", "title": "Types told for CDF variables", "statement": "For every variable of an opened CDF file Type() is the CDL name of its external type and GoType() names the element type of whatever Values, GetSlice and GetSliceMD return: the Go type of the result is that name behind as many brackets as the variable has dimensions (one less for characters).", "quantifier": "every opened file, every variable, every request that succeeds", "why_tests_cant": "All types, ranks and requests, the empty ones included.", "anchors": ["netcdf/cdf/cdf.go: goType, cdlType, convert, emptySlice", "internal/slicer.go: Type, GoType"]}
{"id": "C68", "title": "Types told for attributes", "statement": "For every attribute of an opened CDF file, GetGoType is the Go spelling of the type of the value that Get returns and GetType is its CDL type with the length of a list in parentheses; the same holds for ordered maps of the caller whose values are numbers, strings and rectangular slices of them.", "quantifier": "every opened file and attribute; every ordered map of such values", "why_tests_cant": "All ranks and extents, empty slices included.", "anchors": ["netcdf/util/orderedmap.go: GetType, GetGoType, pType, pGoType, putDim"]}
{"id": "C69", "title": "Objects of a fractal heap are found", "statement": "For a fractal heap stored as the format says (table width 4, unfiltered, direct or indirect root block, indirect blocks nested to any depth, 32 or 40 bit offsets), the reader takes every offset whose block exists to the address of that byte in the file.", "quantifier": "every file and heap, every block size, every offset", "why_tests_cant": "The doubling table grows with the heap; deep tables occur only in files with very many links or attributes.", "anchors": ["netcdf/hdf5/hdf5.go: readHeap, readRootBlock, doDoubling, readLinkData"]}
{"id": "C70", "title": "Every record of a version-2 B-tree is read once", "statement": "For a version-2 B-tree of link names or attribute names stored as the format says, of any depth, the reader hands on every record exactly once, with the address, the size and the creation order of the message it points to in its fractal heap.", "quantifier": "every file, every stored tree", "why_tests_cant": "Trees of several levels occur only in groups with thousands of members.", "anchors": ["netcdf/hdf5/hdf5.go: readBTree, readBTreeInternal, readBTreeLeaf, readRecords"]}
{"id": "C71", "title": "Every symbol of a symbol table is read in order", "statement": "For a symbol table stored as the format says, the reader hands on every symbol exactly once in the order of the table, with the name from the local heap and the address of its object header.", "quantifier": "every file, every stored table", "why_tests_cant": "All tables; the shape of the tree above the symbol table nodes depends on how the group was filled.", "anchors": ["netcdf/hdf5/hdf5.go: readSymbolTable, readSymbolTableLeaf, readLocalHeap"]}
{"id": "C72", "title": "Every message of an object header is read", "statement": "For an object header of version 1 or 2 as the format has it (any flags, times, phase change values, creation orders, gaps and null messages), the messages are handled once each, in order, each with exactly its own type and data; a continuation message is replaced by the messages of its block, continuation blocks nested to any depth.", "quantifier": "every file, every header and chain of continuation blocks", "why_tests_cant": "Headers of other writers are split over blocks in ways no test file covers.", "anchors": ["netcdf/hdf5/hdf5.go: readDataObjectHeader, readDataObjectHeaderV1, readCommon, readContinuation"]}
{"id": "C73", "title": "The tree of a file of another writer is told as it is", "statement": "A file with a superblock of version 0 to 3 and groups, datasets and named datatypes stored as the format says (links in headers, in symbol tables or in fractal heaps with B-trees) opens; GetGroup succeeds for exactly the paths of its groups; ListSubgroups, ListVariables, ListTypes and ListDimensions tell exactly the members of each group by kind, and GetDimension the length of a dimension.", "quantifier": "every such file and tree, of any depth and width", "why_tests_cant": "All trees and all ways of storing them, mixed in one file.", "anchors": ["netcdf/hdf5/hdf5.go: Open, readSuperblock, readLinkDirectFrom, readSymbolTableLeaf, dumpObject, GetGroup, ListSubgroups, ListVariables, ListTypes, ListDimensions"]}
{"id": "C74", "title": "The CDL text of an HDF5 type says what the type is", "statement": "The CDL text given for the type of a variable, for a named type or for a global attribute is determined by the file: it is the type in CDL, each part of which that is a named type of the group is written by its name. It is the same whatever order Go iterates over the children of the group in, and types with equal texts are equal.", "quantifier": "every group, every set of named types, every type nested to any depth, every map order", "why_tests_cant": "The order of a Go map is random, and nesting of types and names is unbounded.", "anchors": ["netcdf/hdf5/hdf5.go: findSignature, findType, GetType, GetVarGetter, findGlobalAttrType", "netcdf/hdf5/compound.go: cdlTypeString", "netcdf/hdf5/enum.go: cdlTypeString", "netcdf/hdf5/vlen.go: cdlTypeString", "netcdf/hdf5/array.go: cdlTypeString"]}
{"id": "C75", "title": "The Go text of an HDF5 type says what the type is", "statement": "The Go text given for the type of a variable or for a named type is determined by the file: it is the type in Go, each part of which that is a named type of the group is written by its name, whatever the map order, and types with equal texts are equal. A type that has a CDL text also has a Go text.", "quantifier": "every group, every set of named types, every type nested to any depth, every map order", "why_tests_cant": "The order of a Go map is random, and nesting of types and names is unbounded.", "anchors": ["netcdf/hdf5/hdf5.go: findSignature, GetGoType, GetVarGetter, cast", "netcdf/hdf5/compound.go: goTypeString", "netcdf/hdf5/enum.go: goTypeString", "netcdf/hdf5/array.go: goTypeString", "netcdf/hdf5/opaque.go: goTypeString"]}
{"id": "C76", "title": "The messages of files of other writers are understood", "statement": "A datatype, dataspace, fill value, layout, filter pipeline or attribute message of any version of the format, of any type nested to any depth and in either byte order, is read as what it says: the type with its sizes, signs, byte orders, member names and offsets, enumeration names and values, and dimensions; the dimensions; the fill value; the place of the data; the filters with their parameters; the name, type and dimensions of the attribute. A file made of such messages opens.", "quantifier": "every message and every file of such messages", "why_tests_cant": "Types nest without bound, every part has its own version and byte order, and the padding differs by version.", "anchors": ["netcdf/hdf5/hdf5.go: printDatatype, readDataspace, readFillValue, readDataLayout, readFilterPipeline, readAttribute, readCommon", "netcdf/hdf5/compound.go: parse", "netcdf/hdf5/enum.go: parse", "netcdf/hdf5/fixedPoint.go: parse", "netcdf/hdf5/floatingPoint.go: parse", "netcdf/hdf5/array.go: parse", "netcdf/hdf5/vlen.go: parse", "netcdf/hdf5/opaque.go: parse"]}
{"id": "C77", "title": "The values of variables of files of other writers are read as they are stored", "statement": "A variable of a file of another writer has the value that its dataset stores: numbers of either byte order, strings of fixed and varying length, opaque data, references, enumerations, arrays, compounds with any bytes between the members, and sequences in global heaps, nested to any depth; stored in the header, in one block, in chunks of which some may be missing, or not at all, where the fill value stands for what is not stored.", "quantifier": "every file of a tree of groups and datasets as the format has it, every type, every value and every layout", "why_tests_cant": "Types, values, dimensions and the choice of the chunks that are there are unbounded.", "anchors": ["netcdf/hdf5/hdf5.go: GetVariable, getVariable, getData, readGlobalHeap, newRecordReader", "netcdf/hdf5/compound.go: alloc, allocCompounds", "netcdf/hdf5/vlen.go: alloc, allocVariable, allocStrings", "netcdf/hdf5/string.go: alloc, allocRegularStrings", "netcdf/hdf5/array.go: alloc", "netcdf/hdf5/enum.go: alloc"]}
{"id": "C78", "title": "The attributes and dimension names of files of other writers are told as they are stored", "statement": "A group or variable of a file of another writer has exactly the attributes that are stored in its header or outside of it, but for the names that netCDF-4 uses for bookkeeping, each with the Go value that is stored, one of one element as that element. A variable has the names of the dimensions that its list of dimensions refers to, or the name it has as a scale. A dataset is listed as a variable if it is not a scale without values, and as a dimension if it is a scale.", "quantifier": "every file of a tree of groups and datasets as the format has it, with any attributes of any types", "why_tests_cant": "The number, the types and the values of the attributes are unbounded, and names of dimensions are found through references over the whole tree.", "anchors": ["netcdf/hdf5/hdf5.go: getAttributes, undoScalarAttribute, sortAttrList, parseAttr, getDimensions, addrIndex, isDimensionScale, isDimension, Attributes, ListVariables, ListDimensions, GetVariable"]}
{"id": "C79", "title": "The values of filtered variables are those that were filtered", "statement": "A variable whose chunks were written through any pipeline of compression, shuffle and checksum filters, each chunk with its own set of filters left out, has the value that was put into the pipeline, with the fill value for chunks that are not there. A variable without filters is read as if there were no pipeline.", "quantifier": "every pipeline, every filter mask, every chunk, every type and value; every inverse of the compression", "why_tests_cant": "The pipelines, the masks of the chunks and the data are unbounded, and each filter changes the sizes that the next one goes by.", "anchors": ["netcdf/hdf5/hdf5.go: newRecordReader, getVariable, readFilterPipeline", "netcdf/hdf5/readers.go: fletcher32Reader, newUnshuffleReader"]}
{"id": "C80", "title": "A VarGetter gives the parts of variables of other writers, filtered or not", "statement": "For a variable of a file of another writer, GetVarGetter tells the shape, the length, the dimension names and the attributes that GetVariable tells; Values gives the value that is stored, GetSlice the part of it between the bounds and GetSliceMD the box between the bounds, in any order of the calls.", "quantifier": "every file of a tree of groups and datasets as the format has it, every type, value, layout, filter pipeline and all bounds", "why_tests_cant": "Files, pipelines, bounds and the history of calls are unbounded, and each call keeps what it read for the next ones.", "anchors": ["netcdf/hdf5/hdf5.go: GetVarGetter, getVariable, getData, getSlice, getSliceMD, newRecordReader", "internal/slicer.go: Values, GetSlice, GetSliceMD, Len, Shape"]}
{"id": "C81", "title": "Files written by the HDF5 writer conform to the published HDF5 format", "statement": "After a successful Close the file is of the HDF5 File Format Specification, version 3.0, by itself and not by what this reader makes of it: superblock with checksum, object headers with checksums, global heap, groups of hard links, datasets with dataspace, datatype, layout and the messages that the specification requires, attributes. Its objects are a tree with no object twice: a group for every group made, a dataset for every variable and every dimension. Every dataset and attribute stores the value last given, in the datatype that its messages tell; every variable refers to the datasets of its dimensions, which are dimension scales as netCDF-4 has them: with distinct numbers, and where there is no variable of the name, zeros as many as the dimension is long and a name that says so.", "quantifier": "every history of calls, every order of the Go maps, all groups, variables, values of all storable types and attributes", "why_tests_cant": "The round trip with this reader cannot show it, for both sides may share a mistake; files, trees, types and values are unbounded.", "anchors": ["netcdf/hdf5/hdf5writer.go: Close, writeObjectHeaderV2, writeGlobalHeap, writeGroupContents, writeGroupObjectHeaderV2, writeVarObjectHeaderV2", "netcdf/hdf5/writer_utils.go: buildDatatypeMessage, buildDataspaceMessage, buildDimensionList"]}
{"id": "C82", "title": "The type told of an attribute is the type of that attribute", "statement": "GetType and GetGoType of the attribute map of a group or a variable of an HDF5 file give the CDL and the Go text of the type of the attribute of that name in that map, with a mark for every dimension, and tell that there is none for names that are not in the map; they never crash.", "quantifier": "every file, every group, variable and name, all types", "why_tests_cant": "The map asks for a type by name only, long after it was made; it depends on all attributes of the file which one is found.", "anchors": ["netcdf/util/orderedmap.go: GetType, GetGoType", "netcdf/hdf5/amap.go: newTypedAttributeMap, regCallback, goCallback", "netcdf/hdf5/hdf5.go: getAttributes, findGlobalAttrType, findGlobalAttrGoType"]}
{"id": "C83", "title": "The types told of what the HDF5 writer wrote are the types of what was written", "statement": "After a successful Close, GetVarGetter of a variable, in any group, tells in CDL and in Go the type of the elements of the value last given: width, sign, strings, members of compounds with their names, names and values of enumerations, sizes of opaque data, elements of sequences. GetType and GetGoType of an attribute of the root tell the type of the value last given, with a mark for every dimension.", "quantifier": "every history of calls, every order of the Go maps, all groups, variables, attributes and values of all storable types", "why_tests_cant": "The type goes from a Go value over the bytes of a datatype message to a text; histories, types and values are unbounded.", "anchors": ["netcdf/hdf5/writer_utils.go: buildDatatypeMessage", "netcdf/hdf5/hdf5.go: GetVarGetter, getVariable, findType, findGlobalAttrType, findGlobalAttrGoType", "netcdf/hdf5/amap.go: regCallback, goCallback"]}
{"id": "C84", "title": "A fill value message without a value does no harm", "statement": "A variable of a file of another writer whose only fill value message is the old one with a size of zero, as the format allows, is read: GetVariable gives what is stored, and does not crash where nothing or not all is stored.", "quantifier": "every file of a tree of groups and datasets as the format has it, all types, values and dimensions, data in the header, in one block, in chunks or not stored", "why_tests_cant": "No file in the test data has such a message; whether it is used depends on the layout and on what is stored.", "anchors": ["netcdf/hdf5/hdf5.go: makeFillValueReader, newRecordReader, getData, readCommon"]}
{"id": "C85", "title": "Cut CDF records are told", "statement": "For a record variable of a file that ends early, GetVariable and GetSlice give the records asked for where the file has all of them, and an error where it does not; they neither crash nor make up data.", "quantifier": "every conforming header with correct sizes, every record variable but a lone one of a small type, every place where the file ends, every slice from the first record", "why_tests_cant": "The outcome depends on where the file ends and on how many records are asked for, both unbounded.", "anchors": ["netcdf/cdf/cdf.go: newRecordReader, getVarCommon"]}
{"id": "C86", "title": "Opening and reading arbitrary bytes as HDF5 ends with a result or an error", "statement": "Whatever bytes a file has, opening it as HDF5 gives a group or an error, and so does GetVariable of any of its variables: the calls end, and the process is not ended by them.", "quantifier": "every sequence of bytes", "why_tests_cant": "The bytes are arbitrary; addresses in them may form circles that no file of the test data has.", "anchors": ["netcdf/hdf5/hdf5.go: readSuperblock, readDataObjectHeaderV1, readContinuation, readCommon, readBTreeNodeAny", "netcdf/hdf5/assert.go: checkZeroes, padBytesCheck"]}
{"id": "C87", "title": "Reading a variable of any file that opens as CDF ends with a value or an error", "statement": "Whatever bytes a file has, if it opens as CDF then GetVariable of any name ends with the variable or with an error, and does not crash: neither for shapes that no memory holds, nor for a fill value of another type, nor for record sizes that are not those of the variables.", "quantifier": "every sequence of bytes that opens, every name", "why_tests_cant": "Headers, shapes, sizes and attributes are arbitrary; the checks that are missing only show for headers that no writer of the test data makes.", "anchors": ["netcdf/cdf/cdf.go: GetVariable, getVarCommon, newRecordReader, makeFillValueReader, convert"]}
{"id": "C88", "title": "An HDF5 variable without dimensions is a row of its own", "statement": "For an HDF5 variable without dimensions Len() is 1, and Values() and GetSlice(0,1) give the value that GetVariable gives; all other slices are errors, as are all boxes, and none of these calls changes what later ones give.", "quantifier": "every variable without dimensions, all bounds", "why_tests_cant": "All bounds, and all types of numbers, before and after other slices.", "anchors": ["netcdf/hdf5/hdf5.go: GetVarGetter, getData, newRecordReader"]}
{"id": "C89", "title": "A CDF variable without dimensions is a row of its own", "statement": "For a CDF variable without dimensions Len() is 1, and Values() and GetSlice(0,1) give its value, or the fill value if the file has none; all other slices and all boxes are errors.", "quantifier": "every file that opens, every variable without dimensions in it, all bounds", "why_tests_cant": "All bounds, and whatever lies before and behind the variable in the file.", "anchors": ["netcdf/cdf/cdf.go: getVarCommon"]}
