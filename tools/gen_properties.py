#!/usr/bin/env python3
"""Writes ../properties.jsonl.  Kept so that ids stay stable when properties are appended."""
import json, os
P=[]
def p(title, statement, quantifier, why, anchors):
    P.append(dict(id="C%02d"%(len(P)+1), title=title, statement=statement, quantifier=quantifier,
                  why_tests_cant=why, anchors=anchors))
CW="netcdf/cdf/cdfwriter.go"; CR="netcdf/cdf/cdf.go"; OM="netcdf/util/orderedmap.go"
HW="netcdf/hdf5/hdf5writer.go"; HU="netcdf/hdf5/writer_utils.go"; HR="netcdf/hdf5/hdf5.go"; RD="netcdf/hdf5/readers.go"
FV="internal/fillvalue.go"; SL="internal/slicer.go"; VN="internal/validname.go"

p("CDF write/read round trip of variable values",
  "If a CDF writer accepts a sequence of AddAttributes/AddVar calls and Close returns without error, then opening the produced bytes succeeds and GetVariable on every added variable returns exactly the values that were added (strings of a string array come back padded with NUL to the longest string of the array). Preconditions a caller must meet: values are rectangular, no dimension has length zero, variable names are distinct, names contain no NUL, sizes fit the 32-bit (version 2) or 64-bit (version 5) header fields, at most 1024 dimensions, and CDF-5 typed global attributes are only used when some variable already forces CDF-5.",
  "every finite history of AddAttributes and AddVar calls; every supported element type, rank, shape, attribute map and variable name",
  "The file layout depends on all variables together (offsets, padding, version); tests exercise a handful of shapes.",
  [CW+": AddVar, writeAll, writeVar, writeData, storeChars, storeBytes, storeInts, storeDoubles", CR+": readHeader, getVar, getVarCommon, convert"])
p("CDF attribute round trip",
  "Global attributes and per-variable attributes written by the CDF writer are returned by Attributes()/GetVariable().Attributes with the same keys in the same order and the same values, except that a slice of length one comes back as a scalar, for every attribute value type the writer accepts.",
  "every ordered attribute map over the accepted attribute types and every value of those types, in both the version-2 and version-5 encodings",
  "Padding of each value depends on its length modulo 4 and on its type; the encodings of different types share code paths and sizes that must agree byte for byte.",
  [CW+": writeAttributes, computeAttributeSize, pad", CR+": getAttr, getAttrList", OM+": NewOrderedMap"])
p("CDF listing and dimensions round trip",
  "After a successful write, ListVariables returns the variable names in the order they were added, ListDimensions returns each dimension name once in order of first use, GetDimension returns the length it was first used with, and GetVariable(...).Dimensions returns the names the caller gave (or the generated names where the caller gave none).",
  "every history of accepted AddVar calls satisfying the preconditions of C01",
  "Dimension ids are assigned across calls; the property relates whole histories.",
  [CW+": AddVar, writeVar, writeAll", CR+": readHeader, getVarCommon, ListVariables, ListDimensions, GetDimension"])
p("CDF dimension registry stays consistent",
  "At every point of any history of AddVar calls, accepted or rejected, each dimension name known to the writer has exactly one length and one id, ids are the consecutive numbers in order of first use, and every accepted variable's extents equal the registered lengths of its dimensions. A call whose extent disagrees with the registered length returns ErrDimensionSize and its variable is not added.",
  "every history of AddVar calls, including failing ones, of any length",
  "It is an invariant over unbounded call histories including the error path.",
  [CW+": AddVar, getDimLengthsHelper"])
p("CDF recorded offsets are the true data positions",
  "In a file produced under the preconditions of C01, the offset recorded in the header for each variable is exactly the position of its first data byte, is a multiple of four, the regions of different variables are disjoint and appear in the order the variables were added, and the last region ends at the end of the file.",
  "every history of accepted calls satisfying the preconditions",
  "Offsets are predicted by a separate size computation before the header is emitted; equality for all name lengths, ranks, attribute sets and types cannot be enumerated.",
  [CW+": computeVarSize, computeAttributeSize, writeVar, writeData, pad, writeAll"])
p("CDF version selection",
  "The version byte of a written file is 5 exactly when some accepted or attempted variable, or variable attribute, used a type that only CDF-5 has (unsigned or 64-bit integers), otherwise 2; and no file whose version byte is 2 contains a CDF-5-only type code.",
  "every history of calls",
  "The version is a sticky side effect of several code paths (including global attributes, which are checked too late).",
  [CW+": scalarKind, checkV5Attributes, AddVar, writeAll, AddAttributes", CR+": checkVersion"])
p("Adding a zero-length variable does not disturb other variables",
  "Adding a variable whose only dimension has length zero never changes what is read back for any other variable.",
  "every history of AddVar calls containing zero-length one-dimensional slices or empty strings",
  "Needs the interaction of one variable's declared size with the placement of all later ones.",
  [CW+": writeVar, writeData, getDimLengthsHelper"])
p("CDF AddVar failure is atomic",
  "If AddVar returns an error, the writer behaves afterwards exactly as if the call had not been made.",
  "every writer state reachable by calls and every failing AddVar call",
  "Equivalence of all future behaviours after an error is not a finite set of cases.",
  [CW+": AddVar, checkV5Attributes, getDimLengthsHelper, scalarKind"])
p("Accepted writes are readable (CDF)",
  "If every AddVar/AddAttributes call was accepted and Close succeeded, the resulting file can be opened.",
  "every history of accepted calls",
  "Acceptance is checked per call but readability is a property of the whole file (e.g. duplicate names are accepted one by one).",
  [CW+": AddVar, Close", CR+": readHeader"])
p("CDF reader rejects duplicate names",
  "Opening a file whose header lists two variables of the same name fails with ErrDuplicateVariable or an earlier error and never returns a group; a file whose attribute list contains the same key twice is rejected likewise.",
  "every byte sequence offered as a file",
  "Quantifies over all files.",
  [CR+": readHeader, getAttrList", OM+": NewOrderedMap"])
p("Opening arbitrary bytes as CDF terminates with a group or an error",
  "Opening any byte sequence as a CDF file returns either a group or an error; it never crashes the process with a runtime panic.",
  "every byte sequence",
  "The input space is all byte strings.",
  [CR+": New, readHeader, getVar, hasUnlimitedDimension, readName, getAttr"])
p("CDF GetSlice equals the slice of the whole (fixed-size variables)",
  "For a variable without unlimited dimension and 0 <= b <= e <= Len(), GetSlice(b,e) returns exactly Values()[b:e], for every file that can be opened.",
  "every openable file, every fixed-size variable, every pair of bounds in range",
  "All ranks, types, bounds and file contents, including files shorter than declared.",
  [CR+": getVarCommon", SL+": GetSlice, Values"])
p("GetSliceMD equals the sub-box of the whole",
  "For in-range bounds, GetSliceMD(begin,end) on a CDF variable of rank at least one returns the elements of Values() at exactly the index tuples in the box [begin,end), in row-major order, with shape end-begin (for char variables the last dimension is not cut, because it is a string).",
  "every shape of positive rank, every in-range box, every data",
  "Combinatorially many boxes and ranks.",
  [SL+": SliceMD, sliceRecursive", CR+": getVarCommon"])
p("Slice bounds are checked",
  "GetSlice and GetSliceMD return an error when end < begin, and also when the range is not contained in [0, Len()].",
  "every variable, every pair of int64 bounds",
  "Bounds range over all int64 pairs.",
  [CR+": getVarCommon", HR+": GetVarGetter"])
p("Missing CDF data reads as fill values",
  "For a fixed-size CDF variable whose stored region is cut short by the end of the file at an element boundary, the elements present are returned unchanged and every missing element equals the variable's fill value (the _FillValue attribute if present, else the netCDF default for the type).",
  "every file, every truncation point, every type and fill value",
  "All truncation points and chunkings of the underlying reader.",
  [CR+": makeFillValueReader, getVarCommon", FV+": FillValueReader.Read"])
p("CDF record variables are gathered from interleaved records",
  "For a file with record variables, GetVariable of a record variable returns the concatenation over records r of the variable's bytes stored at its offset plus r times the record size, decoded and shaped with numrecs as first dimension; a lone byte, char or short record variable is stored without record padding.",
  "every openable file with an unlimited dimension, any number of record variables and records",
  "Interleavings of record layouts are unbounded.",
  [CR+": readHeader, getVar, newRecordReader, getVarCommon"])
p("CDF GetSlice on record variables",
  "For a record variable and 0 <= b <= e <= numrecs, GetSlice(b,e) returns records b..e-1.",
  "every record file and every in-range pair of bounds",
  "All record counts and bounds.",
  [CR+": newRecordReader, getVarCommon"])
p("Ordered map behaves as an insertion-ordered map",
  "NewOrderedMap succeeds exactly when the key list enumerates the map's keys without repetition; then Keys() is that list minus hidden keys in order, Get returns the associated value (also for hidden keys), Add of a new key appends it, Hide removes a key from Keys() only.",
  "every sequence of Add, Hide, Get, Keys operations from every initial map",
  "Histories are unbounded.",
  [OM+": NewOrderedMap, Add, Get, Hide, Keys"])
p("Re-adding a key keeps Keys() duplicate free",
  "After any sequence of Add and Hide, Keys() contains each key at most once.",
  "every sequence of Add and Hide operations",
  "Unbounded histories.",
  [OM+": Add, Hide, Keys"])
p("CDF reference counting closes the file exactly once",
  "Over any interleaving of successful and failing GetGroup calls and Close calls, the underlying file is closed exactly when the number of Close calls first reaches one plus the number of successful GetGroup calls, and it is never closed twice and never before.",
  "every finite sequence of GetGroup/Close calls",
  "Unbounded call histories.",
  [CR+": Close, GetGroup, New"])
p("Fill stream is independent of read sizes",
  "Reading n bytes in total from a fill-value reader through any partition into Read calls yields the first n bytes of the endlessly repeated pattern.",
  "every non-empty pattern and every sequence of read sizes",
  "All partitions of all lengths.",
  [FV+": FillValueReader.Read"])
p("Name validity",
  "IsValidNetCDFName accepts exactly the names that are non-empty, start with a letter or digit, contain no control character and no slash, and do not end in a separator; every variable and attribute name accepted by either writer satisfies this, and such a name survives the CDF name encoding unchanged.",
  "every string",
  "All strings.",
  [VN+": IsValidNetCDFName", CW+": AddVar, AddAttributes, hasValidNames, writeName", CR+": readName", HW+": AddVar, AddAttributes, CreateGroup"])
p("File kind dispatch",
  "netcdf.Open/New never accepts a file that neither format accepts: a first byte 'C' is offered only to the CDF reader, 0x89 only to the HDF5 reader, and anything else (including an empty file) fails with ErrUnknown; files produced by either writer are dispatched to the matching reader.",
  "every byte sequence",
  "All files.",
  ["netcdf/netcdf4.go: Open, New, getKind", CW+": writeAll", HW+": writeSuperblockV2"])
p("Row-major reconstruction",
  "Turning the flat data of a variable into nested slices is the row-major reconstruction for every rank: element (i1,...,in) of the result is element ((i1*d2+i2)*d3+...)+in of the data, and the specialised code for ranks 0, 1 and 2 agrees with the general code.",
  "every rank, shape and data of matching size",
  "Ranks and shapes are unbounded.",
  [CR+": convert, emptySlice"])
p("A truncated CDF file is detected",
  "Opening a strict prefix of a file produced by the CDF writer (a crash during Close) never yields variables whose values silently differ from those written: either the open fails, or reading fails, or the values are those written.",
  "every written file and every crash point (strict prefix)",
  "Every crash point of every file.",
  [CR+": readHeader, getVarCommon, makeFillValueReader", CW+": Close, writeAll"])
p("A truncated HDF5 file is rejected",
  "Opening any strict prefix of a file produced by the HDF5 writer fails with an error.",
  "every written file and every strict prefix",
  "Every crash point of every file.",
  [HW+": Close, writeSuperblockV2", HR+": readSuperblock, New"])
p("HDF5 metadata checksum agreement",
  "The checksum the writer stores over a block is exactly the one the reader recomputes from the stream, for blocks of every length, so every block written passes verification; and a block whose stored checksum differs from the recomputed one is rejected.",
  "every byte string of every length",
  "All lengths modulo 12 and 4 and all contents.",
  ["netcdf/hdf5/checksum.go: checksum, hashInts", HR+": computeChecksumStream, checkChecksum"])
p("HDF5 superblock round trip",
  "The superblock emitted by the writer is accepted by the reader and yields the root address written, for every file size and root address below 2^63.",
  "every end-of-file and root address",
  "64-bit value space.",
  [HW+": writeSuperblockV2, Close", HR+": readSuperblock"])
p("HDF5 object header round trip",
  "Reading back an object header written by the HDF5 writer yields exactly the list of messages written (plus ignorable padding), for every list of messages whose individual sizes fit 16 bits, and the header's checksum verifies.",
  "every list of messages with arbitrary types and contents",
  "Padding depends on total size modulo 8; lists are unbounded.",
  [HW+": writeObjectHeaderV2", HR+": readDataObjectHeaderV2, readCommon"])
p("HDF5 link names round trip",
  "A link message built for a child of a group is read back with the same name and address, for every name of fewer than 256 bytes.",
  "every byte string name and address",
  "All names; names of 256 bytes or more hit a one-byte length field.",
  [HW+": buildLinkMessage", HR+": readLinkDirectFrom, readCommon"])
p("HDF5 dataspace and layout messages round trip",
  "The shape and the data location encoded for a variable are decoded to the same shape and location for every rank up to 255 and every extent.",
  "every shape and address",
  "Unbounded shapes.",
  [HU+": buildDataspaceMessage", HW+": buildLayoutMessageV2", HR+": readDataspace, readDataLayout"])
p("HDF5 datatype messages round trip",
  "The datatype message emitted for each supported Go element type is parsed by the reader to a type description that makes the reader return that same Go type (kind, width, signedness, byte order, string length, vlen element, compound members with names and offsets, enum members).",
  "every supported type, including arbitrary compound, enum and vlen nestings",
  "Recursive type language.",
  [HU+": buildDatatypeMessage, buildFixedPointDatatype, buildFloatingPointDatatype, buildStringDatatype, buildCompoundDatatype, buildEnumDatatype, buildVlenSequenceDatatype", "netcdf/hdf5/types.go: printDatatype", "netcdf/hdf5/compound.go: parse", "netcdf/hdf5/enum.go: parse", "netcdf/hdf5/fixedPoint.go: parse", "netcdf/hdf5/floatingPoint.go: parse"])
p("HDF5 global heap round trip",
  "Every object put in the writer's global heap (string, variable-length sequence or dimension reference) is found by the reader under the index it was given, with the same bytes, provided it is non-empty and there are at most 65535 objects.",
  "every list of byte strings",
  "Heap indexes depend on all earlier objects; padding on sizes modulo 8.",
  [HW+": writeGlobalHeap, addStringToHeap", HR+": readGlobalHeap"])
p("HDF5 variable data round trip",
  "The contiguous data written for a numeric variable of any rank and the reader's decoding of it are inverse, for all element types and both byte orders of the host.",
  "every rectangular numeric array",
  "Ranks, shapes, values.",
  [HW+": writeDataVar, writeDataRecursive", "netcdf/hdf5/fixedPoint.go: allocInt8s, allocShorts, allocInts, allocInt64s", "netcdf/hdf5/floatingPoint.go: allocFloats, allocDoubles"])
p("HDF5 writer histories behave as a tree of maps",
  "After any history of CreateGroup, AddVar and AddAttributes calls through any of the writers obtained, the content to be written is the tree in which CreateGroup is idempotent, the last AddVar for a name in a group wins, and the last AddAttributes for a group wins; rejected calls change nothing.",
  "every history of calls on the root writer and all group writers obtained from it",
  "Unbounded histories with aliasing group handles.",
  [HW+": AddVar, AddAttributes, CreateGroup, groupWriter"])
p("HDF5 writer Close is idempotent",
  "A second Close on an HDF5 writer returns nil and does not change the file; closing a group writer never changes anything.",
  "every history of calls containing several Close calls",
  "Histories.",
  [HW+": Close, groupWriter.Close"])
p("Unshuffle inverts the HDF5 shuffle filter",
  "Reading through the shuffle filter returns the original bytes for every element size and every buffer, whatever sizes the consumer reads.",
  "every element size, every buffer, every sequence of read sizes",
  "All lengths, element sizes and partitions.",
  [RD+": unshuffle, unshuffleReader.Read"])
p("Fletcher32 verification is independent of read sizes",
  "Reading a checksummed chunk through any sequence of reads that ends exactly at the data's end delivers the data unchanged if the stored checksum is the one computed by the HDF5 library, and fails with ErrFletcherChecksum if it is not.",
  "every data, every stored checksum and every partition into reads",
  "All partitions (odd splits carry a partial byte) and all data (sums that are multiples of 65535).",
  [RD+": fletcher.Read, fletcher32Reader"])
p("Chunked HDF5 data is reassembled in row-major order",
  "Reading a chunked dataset whose chunks do not tile it trivially delivers the elements in row-major order of the dataset, whatever read sizes are used.",
  "every rank, dataset shape, chunk shape, element size and read partition",
  "Shapes x chunk shapes x partitions.",
  [RD+": layoutReader.fillrow, layoutReader.Read, calculateFlatOffset", HR+": needsLayoutReader"])
p("Chunk placement is unambiguous",
  "Distinct chunks of a dataset are placed at distinct, non-overlapping positions in the logical stream, in lexicographic order of chunk coordinates, and all fit in the size reserved for the dataset.",
  "every rank, dataset shape, chunk shape and pair of chunk coordinates",
  "Unbounded shapes.",
  [RD+": calculateFlatOffset, calcAttrSize, calcChunkSize"])
p("Partially allocated data reads as data plus fill",
  "The logical byte stream of a dataset equals, at every position covered by a stored block, that block's byte, and at every other position the corresponding byte of the repeated fill pattern starting at the hole.",
  "every set of non-overlapping stored blocks in any order, and every size",
  "All block subsets and orders.",
  [HR+": newRecordReader, makeFillValueReader", "netcdf/hdf5/segment.go: segments"])
p("Chunk index pruning never loses data",
  "When only a range of the first dimension is requested from a dataset whose chunks are contiguous runs of the row-major order, no chunk that intersects the requested byte range is skipped by the index walk.",
  "every index tree with ordered keys, every requested range",
  "All trees and ranges.",
  [HR+": readBTreeNodeAny, calculateFlatOffsetFromKeys"])
p("HDF5 reads do not depend on earlier slice requests",
  "GetVariable and GetSlice on an HDF5 group return the same result whatever GetSlice or GetSliceMD calls were made before on the same variable.",
  "every history of read calls",
  "Histories of calls with shared state.",
  [HR+": GetVarGetter, GetVariable, getData"])
p("HDF5 GetSlice equals the slice of the whole (contiguous data)",
  "For a contiguous HDF5 variable of rank at least one and 0 <= b <= e <= Len(), GetSlice(b,e) on a freshly opened variable returns exactly Values()[b:e].",
  "every contiguous variable and all in-range bounds",
  "All shapes and bounds.",
  [HR+": GetVarGetter, getData, newRecordReader"])
p("HDF5 GetSlice on chunked data",
  "For a chunked HDF5 variable whose data needs reassembly and 0 <= b <= e <= Len(), GetSlice(b,e) returns exactly Values()[b:e].",
  "every chunked variable and all in-range bounds",
  "All shapes, chunk shapes and bounds.",
  [HR+": GetVarGetter, getData, newRecordReader, needsLayoutReader"])
p("HDF5 reference counting",
  "The file behind an HDF5 group is closed exactly when every group handle obtained from it has been closed; closing a handle twice is harmless.",
  "every sequence of GetGroup and Close calls on all handles",
  "Unbounded histories and many handles.",
  [RD+": dup, reference, dereference, raFile.Close", HR+": GetGroup, Close"])
p("Concurrent reads through different handles are independent",
  "If several handles (goroutines) read the same file concurrently, each Read returns the bytes at that handle's own position, for every interleaving of their locked read operations.",
  "every schedule of Read/ReadAt operations over any number of handles",
  "All schedules.",
  [RD+": raFile.Read, ReadAt, readNoLock"])
p("Concurrent GetGroup keeps the reference count right",
  "If several goroutines call GetGroup concurrently, the reference count afterwards equals one plus the number of handles.",
  "every schedule of the reads and writes of the counter",
  "All schedules.",
  [RD+": reference, dereference, dup"])
p("Group path resolution",
  "GetGroup(path) depends only on the non-empty components of the path and whether it starts with a slash, returns the group reached by following exactly those components, and fails with ErrNotFound if some component is missing or is not a group.",
  "every group tree and every path string",
  "All strings and trees.",
  [HR+": canonicalizePath, GetGroup"])
p("HDF5 whole-file round trip",
  "If the HDF5 writer accepts a history of calls describing a tree of groups with numeric, string, compound, enumeration and opaque variables and attributes and variables of sequences of varying length, and Close succeeds, then opening the file yields the same tree: the same groups, variables, values, attributes and dimension names.",
  "every accepted history meeting stated size limits",
  "The file is a graph of addresses computed while writing; agreement for all trees cannot be enumerated.",
  [HW+": Close and callees", HR+": New, GetGroup, GetVariable, Attributes, ListVariables"])
p("Dimension scales are hidden, coordinate variables are not",
  "ListVariables never lists a dimension created only to carry a dimension name, always lists a coordinate variable (a variable named like its dimension), and ListDimensions lists both.",
  "every set of variables and dimension names written",
  "All name sets.",
  [HR+": classifyObject, isDimensionScale, findVariable, ListVariables, ListDimensions", HW+": createDimensionScales"])
p("Variable-width integer encoding round trip",
  "Integers encoded with the writer's variable-width encoder are decoded to the same value by the reader's decoder at the same width whenever they fit, and the width chosen by the writer for compound member offsets is the width the reader assumes.",
  "every value and width",
  "64-bit value space.",
  [HU+": writeEnc, calcFieldSize, buildCompoundDatatype", HR+": readEnc", "netcdf/hdf5/compound.go: parse"])
p("Readers never invent variables: CDF unknown names",
  "GetVariable and GetVarGetter return ErrNotFound for every name not in ListVariables, and never ErrNotFound for a name in it; GetDimension reports exactly the names in ListDimensions.",
  "every openable file and every name",
  "All files and names.",
  [CR+": getVarCommon, GetVariable, GetVarGetter, GetDimension"])
p("Truncated CDF headers never open",
  "If the header of a CDF file (everything before the first data byte) is cut anywhere, opening fails with an error.",
  "every file produced by the CDF writer and every cut inside its header",
  "Every crash point inside the header.",
  [CR+": readHeader", "netcdf/util/binary.go: MustReadBE"])
p("CDF data is a function of the calls, not of Go map order",
  "Two CDF writers given the same calls produce byte-identical files.",
  "every history of calls and every iteration order Go may choose for maps",
  "Map iteration order is chosen at random by the runtime.",
  [CW+": writeAll, AddVar"])
p("Accepted CDF calls can be written out",
  "If every AddAttributes and AddVar call on a CDF writer returned nil, then Close returns nil (on a device that accepts all writes) and no data is lost.",
  "every history of accepted calls",
  "Acceptance is decided per call while failure surfaces only in Close; all value/attribute combinations matter.",
  [CW+": AddVar, checkV5Attributes, AddAttributes, writeAttributes, writeVar, Close"])
p("CDF calls never crash",
  "AddVar, AddAttributes and Close of the CDF writer return an error for values they cannot represent; they never crash the process.",
  "every Go value passed as variable or attribute value",
  "All dynamic types and values.",
  [CW+": getDimLengthsHelper, storeBytes, AddVar"])
p("Conforming CDF files are read as the format says",
  "Every file whose header follows the published grammar of the classic netCDF format (versions 1, 2 and 5, any padding bytes, absent lists written either way, distinct names) opens, and ListVariables, ListDimensions, GetDimension, Attributes, and each variable's dimension names, shape and attributes are exactly what the header says, an unlimited dimension counting as many entries as there are records.",
  "every conforming header and every data part",
  "The grammar generates infinitely many headers; third-party writers choose other encodings than this writer.",
  [CR+": readHeader, getNElems, getAttr, getDim, getVar, getVarCommon"])
p("Written CDF files conform to the published format",
  "Every file the CDF writer produces under the preconditions of C01 whose variables fit the size field starts with a header generated by the published grammar of the format, with the version, dimensions and variables of the calls, no record variable, and CDF-5-only types only in version 5.",
  "every history of calls meeting the preconditions",
  "Other netCDF implementations must be able to read the file; all histories matter.",
  [CW+": writeAll, writePrologue, writeAttributes, writeVar"])
p("Shuffled and checksummed chunks are read back",
  "A chunk stored through the shuffle filter and then the fletcher32 filter is read back through both as the original data, however the storage below partitions its reads.",
  "every data of every element size, every partition of the underlying reads",
  "Errors depend on the parity of lengths and on where reads happen to end.",
  [HR+": newUnshuffleReader, newFletcher32Reader, readAll"])
p("Files of the classic versions carry only classic types",
  "In an opened CDF file of version 1 or 2 every attribute value and every variable has one of the types of the classic format; types that exist only in version 5 are rejected.",
  "every byte sequence that opens",
  "All headers, including those no conforming writer produces.",
  [CR+": checkVersion, getAttr, getVar"])
p("A Close of the HDF5 writer that returns nil means the file is written",
  "If Close of the HDF5 writer returns nil, the file holds the tree described by the calls.",
  "every history of calls on the HDF5 writer",
  "Histories with failing calls.",
  ["netcdf/hdf5/hdf5writer.go: Close"])
p("HDF5 GetSlice on chunks that are runs",
  "For a chunked HDF5 variable whose chunks are runs of the row-major order, with any index and any of its chunks missing, and 0 <= b <= e <= Len(), GetSlice(b,e) on a freshly opened variable returns exactly Values()[b:e], and Values() returns what GetVariable returns.",
  "every such variable, every index tree with ordered keys, all in-range bounds",
  "The index is pruned by byte ranges; all trees, ranges and sets of missing chunks matter.",
  [HR+": GetVarGetter, getData, newRecordReader, readBTreeNodeAny"])
p("Chunked HDF5 variables read as the dataset",
  "The values of a chunked HDF5 variable whose chunks need reassembly are those of the dataset in row-major order, elements of missing chunks being the fill value.",
  "every shape, chunk shape, index tree and set of missing chunks",
  "Combines the index, the order of blocks, holes and the reassembly.",
  [HR+": getData, newRecordReader", "netcdf/hdf5/readers.go: newLayoutReader"])
p("HDF5 GetSliceMD equals the restriction of the whole",
  "For an HDF5 variable of rank at least one and bounds within its shape, GetSliceMD on a freshly opened variable returns an array of the requested shape whose element at every index is the element of GetVariable at that index plus the lower bounds.",
  "every variable and all in-range bounds",
  "All shapes and bounds in all dimensions.",
  [HR+": GetVarGetter", "internal/slicer.go: SliceMD, sliceRecursive"])
p("Dimension lengths in a written HDF5 file",
  "After a history of calls that the HDF5 writer accepted and a successful Close, GetDimension on the root of the file returns, for every dimension name, the length along that dimension of every variable that has it, and reports every other name as absent.",
  "every accepted history meeting stated size limits",
  "All combinations of variables that share dimensions, in all groups.",
  ["netcdf/hdf5/hdf5writer.go: createDimensionScales, collectDimensions", HR+": GetDimension, ListDimensions"])
p("Types told for CDF variables",
  "For every variable of an opened CDF file Type() is the CDL name of its external type and GoType() names the element type of whatever Values, GetSlice and GetSliceMD return: the Go type of the result is that name behind as many brackets as the variable has dimensions (one less for characters).",
  "every opened file, every variable, every request that succeeds",
  "All types, ranks and requests, the empty ones included.",
  [CR+": goType, cdlType, convert, emptySlice", "internal/slicer.go: Type, GoType"])
p("Types told for attributes",
  "For every attribute of an opened CDF file, GetGoType is the Go spelling of the type of the value that Get returns and GetType is its CDL type with the length of a list in parentheses; the same holds for ordered maps of the caller whose values are numbers, strings and rectangular slices of them.",
  "every opened file and attribute; every ordered map of such values",
  "All ranks and extents, empty slices included.",
  ["netcdf/util/orderedmap.go: GetType, GetGoType, pType, pGoType, putDim"])
p("Objects of a fractal heap are found",
  "For a fractal heap stored as the format says (table width 4, unfiltered, direct or indirect root block, indirect blocks nested to any depth, 32 or 40 bit offsets), the reader takes every offset whose block exists to the address of that byte in the file.",
  "every file and heap, every block size, every offset",
  "The doubling table grows with the heap; deep tables occur only in files with very many links or attributes.",
  [HR+": readHeap, readRootBlock, doDoubling, readLinkData"])
p("Every record of a version-2 B-tree is read once",
  "For a version-2 B-tree of link names or attribute names stored as the format says, of any depth, the reader hands on every record exactly once, with the address, the size and the creation order of the message it points to in its fractal heap.",
  "every file, every stored tree",
  "Trees of several levels occur only in groups with thousands of members.",
  [HR+": readBTree, readBTreeInternal, readBTreeLeaf, readRecords"])
p("Every symbol of a symbol table is read in order",
  "For a symbol table stored as the format says, the reader hands on every symbol exactly once in the order of the table, with the name from the local heap and the address of its object header.",
  "every file, every stored table",
  "All tables; the shape of the tree above the symbol table nodes depends on how the group was filled.",
  [HR+": readSymbolTable, readSymbolTableLeaf, readLocalHeap"])
p("Every message of an object header is read",
  "For an object header of version 1 or 2 as the format has it (any flags, times, phase change values, creation orders, gaps and null messages), the messages are handled once each, in order, each with exactly its own type and data; a continuation message is replaced by the messages of its block, continuation blocks nested to any depth.",
  "every file, every header and chain of continuation blocks",
  "Headers of other writers are split over blocks in ways no test file covers.",
  [HR+": readDataObjectHeader, readDataObjectHeaderV1, readCommon, readContinuation"])
p("The tree of a file of another writer is told as it is",
  "A file with a superblock of version 0 to 3 and groups, datasets and named datatypes stored as the format says (links in headers, in symbol tables or in fractal heaps with B-trees) opens; GetGroup succeeds for exactly the paths of its groups; ListSubgroups, ListVariables, ListTypes and ListDimensions tell exactly the members of each group by kind, and GetDimension the length of a dimension.",
  "every such file and tree, of any depth and width",
  "All trees and all ways of storing them, mixed in one file.",
  [HR+": Open, readSuperblock, readLinkDirectFrom, readSymbolTableLeaf, dumpObject, GetGroup, ListSubgroups, ListVariables, ListTypes, ListDimensions"])
p("The CDL text of an HDF5 type says what the type is",
  "The CDL text given for the type of a variable, for a named type or for a global attribute is determined by the file: it is the type in CDL, each part of which that is a named type of the group is written by its name. It is the same whatever order Go iterates over the children of the group in, and types with equal texts are equal.",
  "every group, every set of named types, every type nested to any depth, every map order",
  "The order of a Go map is random, and nesting of types and names is unbounded.",
  [HR+": findSignature, findType, GetType, GetVarGetter, findGlobalAttrType", "netcdf/hdf5/compound.go: cdlTypeString", "netcdf/hdf5/enum.go: cdlTypeString", "netcdf/hdf5/vlen.go: cdlTypeString", "netcdf/hdf5/array.go: cdlTypeString"])
p("The Go text of an HDF5 type says what the type is",
  "The Go text given for the type of a variable or for a named type is determined by the file: it is the type in Go, each part of which that is a named type of the group is written by its name, whatever the map order, and types with equal texts are equal. A type that has a CDL text also has a Go text.",
  "every group, every set of named types, every type nested to any depth, every map order",
  "The order of a Go map is random, and nesting of types and names is unbounded.",
  [HR+": findSignature, GetGoType, GetVarGetter, cast", "netcdf/hdf5/compound.go: goTypeString", "netcdf/hdf5/enum.go: goTypeString", "netcdf/hdf5/array.go: goTypeString", "netcdf/hdf5/opaque.go: goTypeString"])
p("The messages of files of other writers are understood",
  "A datatype, dataspace, fill value, layout, filter pipeline or attribute message of any version of the format, of any type nested to any depth and in either byte order, is read as what it says: the type with its sizes, signs, byte orders, member names and offsets, enumeration names and values, and dimensions; the dimensions; the fill value; the place of the data; the filters with their parameters; the name, type and dimensions of the attribute. A file made of such messages opens.",
  "every message and every file of such messages",
  "Types nest without bound, every part has its own version and byte order, and the padding differs by version.",
  [HR+": printDatatype, readDataspace, readFillValue, readDataLayout, readFilterPipeline, readAttribute, readCommon", "netcdf/hdf5/compound.go: parse", "netcdf/hdf5/enum.go: parse", "netcdf/hdf5/fixedPoint.go: parse", "netcdf/hdf5/floatingPoint.go: parse", "netcdf/hdf5/array.go: parse", "netcdf/hdf5/vlen.go: parse", "netcdf/hdf5/opaque.go: parse"])
p("The values of variables of files of other writers are read as they are stored",
  "A variable of a file of another writer has the value that its dataset stores: numbers of either byte order, strings of fixed and varying length, opaque data, references, enumerations, arrays, compounds with any bytes between the members, and sequences in global heaps, nested to any depth; stored in the header, in one block, in chunks of which some may be missing, or not at all, where the fill value stands for what is not stored.",
  "every file of a tree of groups and datasets as the format has it, every type, every value and every layout",
  "Types, values, dimensions and the choice of the chunks that are there are unbounded.",
  [HR+": GetVariable, getVariable, getData, readGlobalHeap, newRecordReader", "netcdf/hdf5/compound.go: alloc, allocCompounds", "netcdf/hdf5/vlen.go: alloc, allocVariable, allocStrings", "netcdf/hdf5/string.go: alloc, allocRegularStrings", "netcdf/hdf5/array.go: alloc", "netcdf/hdf5/enum.go: alloc"])
p("The attributes and dimension names of files of other writers are told as they are stored",
  "A group or variable of a file of another writer has exactly the attributes that are stored in its header or outside of it, but for the names that netCDF-4 uses for bookkeeping, each with the Go value that is stored, one of one element as that element. A variable has the names of the dimensions that its list of dimensions refers to, or the name it has as a scale. A dataset is listed as a variable if it is not a scale without values, and as a dimension if it is a scale.",
  "every file of a tree of groups and datasets as the format has it, with any attributes of any types",
  "The number, the types and the values of the attributes are unbounded, and names of dimensions are found through references over the whole tree.",
  [HR+": getAttributes, undoScalarAttribute, sortAttrList, parseAttr, getDimensions, addrIndex, isDimensionScale, isDimension, Attributes, ListVariables, ListDimensions, GetVariable"])
p("The values of filtered variables are those that were filtered",
  "A variable whose chunks were written through any pipeline of compression, shuffle and checksum filters, each chunk with its own set of filters left out, has the value that was put into the pipeline, with the fill value for chunks that are not there. A variable without filters is read as if there were no pipeline.",
  "every pipeline, every filter mask, every chunk, every type and value; every inverse of the compression",
  "The pipelines, the masks of the chunks and the data are unbounded, and each filter changes the sizes that the next one goes by.",
  [HR+": newRecordReader, getVariable, readFilterPipeline", "netcdf/hdf5/readers.go: fletcher32Reader, newUnshuffleReader"])
p("A VarGetter gives the parts of variables of other writers, filtered or not",
  "For a variable of a file of another writer, GetVarGetter tells the shape, the length, the dimension names and the attributes that GetVariable tells; Values gives the value that is stored, GetSlice the part of it between the bounds and GetSliceMD the box between the bounds, in any order of the calls.",
  "every file of a tree of groups and datasets as the format has it, every type, value, layout, filter pipeline and all bounds",
  "Files, pipelines, bounds and the history of calls are unbounded, and each call keeps what it read for the next ones.",
  [HR+": GetVarGetter, getVariable, getData, getSlice, getSliceMD, newRecordReader", "internal/slicer.go: Values, GetSlice, GetSliceMD, Len, Shape"])
p("Files written by the HDF5 writer conform to the published HDF5 format",
  "After a successful Close the file is of the HDF5 File Format Specification, version 3.0, by itself and not by what this reader makes of it: superblock with checksum, object headers with checksums, global heap, groups of hard links, datasets with dataspace, datatype, layout and the messages that the specification requires, attributes. Its objects are a tree with no object twice: a group for every group made, a dataset for every variable and every dimension. Every dataset and attribute stores the value last given, in the datatype that its messages tell; every variable refers to the datasets of its dimensions, which are dimension scales as netCDF-4 has them: with distinct numbers, and where there is no variable of the name, zeros as many as the dimension is long and a name that says so.",
  "every history of calls, every order of the Go maps, all groups, variables, values of all storable types and attributes",
  "The round trip with this reader cannot show it, for both sides may share a mistake; files, trees, types and values are unbounded.",
  ["netcdf/hdf5/hdf5writer.go: Close, writeObjectHeaderV2, writeGlobalHeap, writeGroupContents, writeGroupObjectHeaderV2, writeVarObjectHeaderV2", "netcdf/hdf5/writer_utils.go: buildDatatypeMessage, buildDataspaceMessage, buildDimensionList"])
p("The type told of an attribute is the type of that attribute",
  "GetType and GetGoType of the attribute map of a group or a variable of an HDF5 file give the CDL and the Go text of the type of the attribute of that name in that map, with a mark for every dimension, and tell that there is none for names that are not in the map; they never crash.",
  "every file, every group, variable and name, all types",
  "The map asks for a type by name only, long after it was made; it depends on all attributes of the file which one is found.",
  [OM+": GetType, GetGoType", "netcdf/hdf5/amap.go: newTypedAttributeMap, regCallback, goCallback", HR+": getAttributes, findGlobalAttrType, findGlobalAttrGoType"])
p("The types told of what the HDF5 writer wrote are the types of what was written",
  "After a successful Close, GetVarGetter of a variable, in any group, tells in CDL and in Go the type of the elements of the value last given: width, sign, strings, members of compounds with their names, names and values of enumerations, sizes of opaque data, elements of sequences. GetType and GetGoType of an attribute of the root tell the type of the value last given, with a mark for every dimension.",
  "every history of calls, every order of the Go maps, all groups, variables, attributes and values of all storable types",
  "The type goes from a Go value over the bytes of a datatype message to a text; histories, types and values are unbounded.",
  ["netcdf/hdf5/writer_utils.go: buildDatatypeMessage", HR+": GetVarGetter, getVariable, findType, findGlobalAttrType, findGlobalAttrGoType", "netcdf/hdf5/amap.go: regCallback, goCallback"])
p("A fill value message without a value does no harm",
  "A variable of a file of another writer whose only fill value message is the old one with a size of zero, as the format allows, is read: GetVariable gives what is stored, and does not crash where nothing or not all is stored.",
  "every file of a tree of groups and datasets as the format has it, all types, values and dimensions, data in the header, in one block, in chunks or not stored",
  "No file in the test data has such a message; whether it is used depends on the layout and on what is stored.",
  [HR+": makeFillValueReader, newRecordReader, getData, readCommon"])
p("Cut CDF records are told",
  "For a record variable of a file that ends early, GetVariable and GetSlice give the records asked for where the file has all of them, and an error where it does not; they neither crash nor make up data.",
  "every conforming header with correct sizes, every record variable but a lone one of a small type, every place where the file ends, every slice from the first record",
  "The outcome depends on where the file ends and on how many records are asked for, both unbounded.",
  [CR+": newRecordReader, getVarCommon"])
p("Opening and reading arbitrary bytes as HDF5 ends with a result or an error",
  "Whatever bytes a file has, opening it as HDF5 gives a group or an error, and so does GetVariable of any of its variables: the calls end, and the process is not ended by them.",
  "every sequence of bytes",
  "The bytes are arbitrary; addresses in them may form circles that no file of the test data has.",
  [HR+": readSuperblock, readDataObjectHeaderV1, readContinuation, readCommon, readBTreeNodeAny", "netcdf/hdf5/assert.go: checkZeroes, padBytesCheck"])
p("Reading a variable of any file that opens as CDF ends with a value or an error",
  "Whatever bytes a file has, if it opens as CDF then GetVariable of any name ends with the variable or with an error, and does not crash: neither for shapes that no memory holds, nor for a fill value of another type, nor for record sizes that are not those of the variables.",
  "every sequence of bytes that opens, every name",
  "Headers, shapes, sizes and attributes are arbitrary; the checks that are missing only show for headers that no writer of the test data makes.",
  [CR+": GetVariable, getVarCommon, newRecordReader, makeFillValueReader, convert"])
p("An HDF5 variable without dimensions is a row of its own",
  "For an HDF5 variable without dimensions Len() is 1, and Values() and GetSlice(0,1) give the value that GetVariable gives; all other slices are errors, as are all boxes, and none of these calls changes what later ones give.",
  "every variable without dimensions, all bounds",
  "All bounds, and all types of numbers, before and after other slices.",
  [HR+": GetVarGetter, getData, newRecordReader"])
p("A CDF variable without dimensions is a row of its own",
  "For a CDF variable without dimensions Len() is 1, and Values() and GetSlice(0,1) give its value, or the fill value if the file has none; all other slices and all boxes are errors.",
  "every file that opens, every variable without dimensions in it, all bounds",
  "All bounds, and whatever lies before and behind the variable in the file.",
  [CR+": getVarCommon"])
with open(os.path.join(os.path.dirname(__file__),"..","properties.jsonl"),"w") as f:
    for x in P: f.write(json.dumps(x)+"\n")
print(len(P))
