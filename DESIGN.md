# Formal model of go-native-netcdf: design

Subject: `batchatco/go-native-netcdf` as found in `/repo` (read as text only).
Prover: Coq 8.16.1; files under `rocq/theories`, logical root `Verif`.

## Trusted base

* Coq's kernel.
* What `Print Assumptions` prints after each property theorem (every property file prints it; the
  aim is "Closed under the global context" everywhere; deviations are listed at the end of this file).
* The reading of the Go code embodied in the `*Model*.v` files: every definition there cites the Go
  file and lines it models and states its simplifications.
* Facts about Go and its libraries that the models assume:
  * `thrower.RecoverError` turns *thrown* errors into the returned error and lets runtime panics
    through (its source is not in `/repo`).  The models therefore have three outcomes:
    `Ok`, `Err e`, `Panic`.
  * `encoding/binary.Read/Write` encode fixed-size integers and IEEE floats in the byte order given;
    `binary.Read` reads exactly the number of bytes it needs or fails.
  * `bufio`, `io.LimitReader`, `io.MultiReader` behave as documented (a stream is a list of bytes).
  * floats are their IEEE bit patterns (the float64 detour taken by the writer for scalar float32
    quietens signalling NaNs, `quiet32`, and preserves all other bits).
  * `make` panics when the requested size exceeds 2^48 bytes (linux/amd64); running out of memory
    below that limit is not modelled.
  * operating system errors other than end of file are not modelled.

## What is modelled, what is not

Modelled: `internal/fillvalue.go`, `internal/slicer.go`, `internal/validname.go` (over an abstract
classification of code points), `util/orderedmap.go` (type strings for numbers, strings and slices), `netcdf4.go` dispatch, all of
`cdf/cdfwriter.go`, all of `cdf/cdf.go`; from `hdf5/`: `readers.go`, `checksum.go`, the writer
(`hdf5writer.go`, `writer_utils.go`) and the parts of `hdf5.go` and the type managers that read what
the writer writes, plus chunk layout, B-tree pruning, record reader, slices and path handling, and
of foreign files: object headers of both versions with all their messages, continuation blocks,
fractal heaps, version-2 B-trees, local heaps, symbol tables and fill values; the type strings of
HDF5 types.

Not modelled: logging, zlib (a parameter of the model of the filter pipeline), registered casts
(`register`), OS errors.

## Layout of the development

* `*Model*.v` -- the model, no proofs.  `*Spec*.v` -- independent specifications.
* `*Proofs*.v` -- lemmas.  `P_*.v` -- property theorems, each closed by `exact`, with an
  example meeting its hypotheses and `Print Assumptions`.

If a property is false of the code, the strongest guarded form is proved and the general form is
refuted by a concrete witness (`..._refuted`), evaluated on the model.

## Plan per property

| id | model | proof |
|----|-------|-------|
| C01 | CDF writer state machine and byte emission; CDF reader as a parser plus `getVarCommon`, `convert` | symbolic execution of the parser on the emitted header by induction over dims, attributes, variables; data by offset lemma C05 and decode/encode inverse |
| C02 | `writeAttributes`/`getAttr` | encode/decode round trip by cases on type and induction on the list |
| C03 | as C01 | corollaries of the header round trip |
| C04 | `AddVar` step function | invariant by induction over histories |
| C05 | `computeVarSize`, `writeVar`, `writeData` | size function = length of emitted bytes |
| C06 | version field in the step function | induction over histories; refuted part: global attributes |
| C07 | as C01; states whose variables have a length-zero dimension or only positive ones | refuted by witness; proved for the variables added before the first empty one |
| C08 | step function | refuted by witness; proved: failures by name are no-ops, no failure changes the variable list |
| C09 | as C01 | refuted (duplicate names); guarded form is C01 |
| C10 | `readHeader` | induction over the variable loop |
| C11 | `readHeader` with `Panic` outcomes | refuted by witness and for every file with such a place; guarded: no panic for conforming headers; for all bytes a panic has its place in a loose grammar of headers, by inversion of every parser |
| C12 | `getSlice` closure | take/drop algebra on decoded lists |
| C13 | `sliceRecursive`, `getSliceMD` | induction over rank against an index-function specification |
| C14 | both slicers | proved for end < begin; refuted for out of range, where it is proved what is given: CDF variables of fixed size and records, contiguous HDF5 variables |
| C15 | fill reader + limit reader | stream algebra |
| C16 | `newRecordReader` with start 0 | induction over records |
| C17 | `newRecordReader` with start > 0 | refuted by witness |
| C18 | `OrderedMap` | refinement to an association list |
| C19 | `OrderedMap.Add` | refuted by witness; guarded form proved |
| C20 | reference-count step function | invariant over histories |
| C21 | `FillValueReader.Read` | induction over reads |
| C22 | regexes over classified code points | direct |
| C23 | `getKind` and dispatch | cases |
| C24 | `convert` | induction over rank, index specification |
| C25 | as C15 | refuted by witness; guarded form: C54 |
| C26 | superblock check | prefix reasoning on the superblock |
| C27 | lookup3 hash, both word-splitting paths | equality for all byte strings |
| C28 | superblock writer/reader | symbolic execution |
| C29 | object header v2 writer/reader | induction over messages |
| C30 | link message | symbolic execution, refuted for >= 256 bytes |
| C31 | dataspace/layout | induction over rank |
| C32 | datatype messages | induction over the type language |
| C33 | global heap | induction over objects |
| C34 | data encode/decode | induction over rank |
| C35 | writer tree as state machine | refinement to a finite map over paths |
| C36 | `closed` flag | induction over histories |
| C37 | `unshuffle`, reader | index algebra; leftover bytes refuted |
| C38 | `fletcher.Read` | invariant relating sums to prefix; refuted against the library algorithm for sums = 0 mod 65535 |
| C39 | `layoutReader` | refuted for rank >= 3; proved when correct |
| C40 | `calculateFlatOffset` | mixed-radix arithmetic |
| C41 | segment assembly | induction over sorted segments |
| C42 | pruning | interval reasoning over trees |
| C43 | shared `objAttr` state | refuted by witness; invariant over histories for slices |
| C44 | contiguous slices | stream algebra; parsers that take a fixed number of bytes per row, also for descriptors of sequences; refuted for empty slices of sequences, sequences of compounds and characters with NUL |
| C45 | chunked slices | refuted by witness; slices from 0 from C64 |
| C46 | refcount | invariant over histories; double close |
| C47 | seek+read under lock | schedule induction |
| C48 | unlocked increment | refuted by a schedule |
| C49 | `canonicalizePath`, `GetGroup` | string lemmas, induction over the tree |
| C50 | composition of C27-C34 | induction over the tree; values of any type |
| C51 | `classifyObject`, `createDimensionScales` | direct |
| C52 | `writeEnc`, `readEnc` | cases; width 3 refuted |
| C53 | `getVarCommon` | direct |
| C54 | `readHeader` on prefixes | prefix-failure lemma for parsers |
| C55 | writer as a function of the history | direct: the emitted bytes do not use map iteration order |
| C56 | `Close` after accepted calls | refuted by witness; guarded form from C01 |
| C57 | `Panic` outcomes of the writer | refuted by witness; guarded form |
| C58 | `readHeader` against a grammar written down independently (`CdfFormat.v`) | induction over the lists of the grammar |
| C59 | emitted header against the same grammar | the closed form of the file (C05) satisfies the grammar |
| C60 | `unshuffle` over `fletcher.Read` over `readAll` | composition of C37 and C38; odd lengths refuted |
| C61 | `checkVersion`, types of an opened file | invariant of the header parser; variables refuted by witness |
| C62 | `closed` flag and rendering | refuted by witness: Close after a failed Close |
| C63 | `newRecordReader` over the pruned index | C42, byte ranges of a stream of data and fill |
| C64 | `getData` over index, blocks and layout reader | C41 and C39 composed; refuted for chunk shapes that are not orderly |
| C65 | `SliceMD` | shapes of decoded values, induction over the rank; enumerations refuted |
| C66 | `createDimensionScales`, `GetDimension` | sizes collected from the tree; two lengths for one dimension refuted |
| C67 | `goType`, `cdlType`, `convert` | induction over the rank; empty char arrays refuted |
| C68 | `pType`, `pGoType`, `putDim` | induction over the value |
| C69 | `readHeap`, `doDoubling` | sums over the rows of the doubling table, induction over the nesting |
| C70 | `readBTree` | induction over the depth; preorder is a permutation of the key order; large nodes refuted |
| C71 | `readSymbolTable` | induction over the entries; more levels refuted |
| C72 | object headers and continuation blocks | induction over the messages and over the nesting of blocks, against ForeignSpec |
| C73 | `openFile` and the calls on groups | mutual induction over the tree of a file of ForeignSpec; soft links, second links, shared types, superblock extensions refuted |
| C74 | CDL type texts | sets of outcomes over all map orders; induction over the depth of findSignature and over the type; CDL texts are shown to be uniquely readable; refuted where types coincide or have unfit names |
| C75 | Go type texts | as C74 for the language of Go; refuted for arrays of bytes beside opaque types |
| C76 | messages of other writers | messages given by inductive relations from the format specification; induction over the type for the parser; each parser run on its message with padding after it; refuted for newer versions, many members, opaque data, empty attributes, old layouts, new chunk indexes, virtual datasets, external files, other filters |
| C77 | values of other writers | values given by an inductive relation between type, dimensions, bytes and Go value from the format specification; mutual induction for `alloc`; chunk trees refine to a map from element to bytes; invariant of the tree traversal carries the messages of each dataset to `getVariable`; refuted for members out of order, characters in two dimensions, empty sequences, reference counts, layout messages before datatype messages |
| C78 | attributes and dimension names of other writers | attributes by name, type, dimensions and Go value in a spec of their own, names of dimensions by references resolved in the tree; the traversal invariant carries the attributes of every object to the calls; the index of addresses is a permutation of the addresses of the tree; refuted for several strings of fixed length, one row, opaque without tag, single members and elements, dimensions without scales |
| C79 | filtered data of other writers | pipelines as an inductive relation between data, mask, filters and stored bytes; induction over the pipeline from its end with the sizes that the reader goes by; the chunk traversal of C77 taken over for any function that undoes the chunks; refuted for filters after compression |
| C80 | parts of variables of other writers | parts and boxes of a value as in C43, C63 and C65; the file and the variable as in C77 and C79; the slices of runs taken over for blocks behind any function that undoes the chunks; refuted for chunks that are no runs |
| C81 | conformance to the format | the format of the foreign-file specifications (C73, C76-C78) read the other way: headers, heap, types, values and attributes of the writer shown to be of it, part by part; then the tree by induction, with the parts where C50 found them; refuted for the fill value message |
| C82 | types of attributes | attribute maps with the callbacks of amap.go over the type texts of C74 and C75; the exact outcome for every key, then the case in which it is the attribute's own type; refuted by two written files |
| C83 | types of written values | C50 (the datatype messages of the tree) composed with C75 and C82: the shape of a value's type is that of the type read back |
| C84 | `makeFillValueReader` on an empty old fill value, as part of `getVariablePiped` | as C77; one block, or chunks that tile the dataset, need no fill value (lengths of the segments add up to the size); anything missing or chunks beyond the edge: refuted for every such file; the same with filters |
| C85 | record variables of files that end early | as C16 without the data; induction over the readers with the bytes still asked for |
| C86 | arbitrary bytes as HDF5 | the superblock by cases; the endless calls by induction over the fuel of the model, which stands for the depth of the Go stack; refuted for every such file |
| C87 | GetVariable of any opened CDF file | what the header parser keeps of sizes as an invariant of its loops; then the reading by cases: no records, fixed, lone small record variable, records; refuted for every file with a fill value of another type or a size beyond memory |
| C88 | slices of HDF5 variables without dimensions | cases of the bounds; numbers depend on their own bytes only; refuted for all bounds with as many rows as bytes |
| C89 | slices of CDF variables without dimensions | a slice is the value of a variable moved by as many elements as the slice begins; refuted for all bounds that do not begin before the file |

## Modules

| area | model | specification | proofs | properties |
|------|-------|---------------|--------|------------|
| Go values, bytes | Prelude, GoVal | | BaseLemmas | |
| ordered maps | OrderedMapModel | | OrderedMapProofs | P_OrderedMap |
| fill values | FillModel | | FillProofs | P_Fill |
| names | ValidNameModel, NameUse | | ValidNameProofs | P_Names |
| CDF writer | CdfWriterModel | CdfSpec, CdfEmptySpec | CdfStore, CdfCalls, CdfInv, CdfLayout, CdfClose, CdfVersion, CdfEmpty | P_CdfWriter |
| CDF reader | CdfReaderModel, CdfRefModel | ArraySpec | CdfCodec, CdfHeader, CdfConvert, CdfFile, CdfFixed, CdfRound, ArrayProofs, CdfRefProofs | P_CdfRound, P_CdfRef |
| CDF format | | CdfFormat | CdfLocal, CdfParse, CdfConform, CdfOpened | P_CdfFormat |
| CDF slices, records, missing data | CdfReaderModel | SliceSpec | CdfBounds, CdfSlice, CdfBox, CdfRecord, CdfMissing, CdfCut | P_CdfSlice, P_CdfRecord, P_CdfCut |
| type strings | TypeStrModel | TypeStrSpec | TypeStrProofs | P_TypeStr |
| dispatch | DispatchModel | | | P_Dispatch |
| HDF5 streams, checksum | H5Base, H5ChecksumModel | Lookup3Spec | H5ChecksumProofs | P_H5Checksum |
| HDF5 filters | H5FilterModel | FilterSpec | H5FilterProofs | P_H5Filters |
| HDF5 handles | H5RefModel | | H5RefProofs | P_H5Ref |
| HDF5 concurrent reads | H5ConcModel | ConcSpec | H5ConcProofs | P_H5Conc |
| CDF types by version | CdfReaderModel | CdfTypes (classic_value) | CdfTypes | P_CdfTypes |
| HDF5 paths | H5PathModel | PathSpec | H5PathProofs | P_H5Path |
| HDF5 chunked layout | H5LayoutModel | ChunkSpec | H5ChunkProofs, IndexProofs, H5LayoutProofs, H5LayoutRead | P_H5Layout |
| HDF5 metadata blocks | H5MetaWrite, H5MetaRead | MetaSpec | H5MetaProofs | P_H5Meta |
| HDF5 datatypes and values | H5Value, H5TypeRead | TypeSpec | H5TypeProofs, H5DataProofs, H5StoreProofs, H5VarProofs, H5AttrSeqProofs | P_H5Types |
| HDF5 writer calls | H5FileWrite, H5WriterModel | WriterSpec | H5WriterProofs | P_H5Writer |
| HDF5 stored data | H5RecordModel | RecordSpec, ChunkSpec | H5RecordProofs, H5IndexProofs, H5SliceProofs, H5RunProofs, H5ChunkedProofs, H5CallProofs | P_H5Record |
| HDF5 reader on written files | H5FileRead | FileSpec, PathSpec | H5AttrProofs, H5ObjectProofs, H5TreeProofs, H5PlaceProofs, H5HeapProofs, H5GoodProofs, H5PrepareProofs, H5SizeProofs, H5WholeProofs, H5ApiPath, H5ApiProofs, H5ApiValues, H5FileProofs, H5CallsProofs, H5LengthProofs | P_H5File, P_H5FileEx, P_H5Composed, P_H5Length |
| HDF5 dense storage | H5DenseRead | DenseSpec | H5DenseProofs, H5BTreeProofs, H5SymbolProofs | P_H5Dense |
| HDF5 files of other writers | H5FileRead | ForeignSpec, ForeignExtSpec | H5ForeignProofs, H5ForeignTree, H5ForeignOpen, H5ForeignApi | P_H5Foreign, P_H5ForeignExt |
| HDF5 type texts | H5TypeText | TypeTextSpec, H5ShapeSpec | TypeTextProofs, TypeTextGo, H5TypeTextProofs, H5TypeTextAll | P_H5TypeText |
| HDF5 messages of other writers | H5TypeRead, H5FileRead | ForeignTypeSpec, ForeignMsgSpec, ForeignLayoutSpec | H5ForeignType, H5ForeignMsg | P_H5ForeignType, P_H5ForeignLayout |
| HDF5 values of other writers | H5Value, H5RecordModel, H5FileRead | ForeignValueSpec, ForeignDataSpec | H5ForeignValue, H5ForeignData, H5ForeignVar | P_H5ForeignValue |
| HDF5 attributes of other writers | H5FileRead, OrderedMapModel | ForeignAttrSpec | H5ForeignAttr | P_H5ForeignAttr |
| HDF5 filtered data | H5PipeModel | ForeignFilterSpec | H5PipeProofs, H5PipeVar | P_H5ForeignFilter |
| HDF5 getters | H5GetterModel | ForeignSliceSpec | H5GetterProofs | P_H5Getter |
| HDF5 format of written files | H5FileWrite, H5WriterModel | FormatSpec, LengthSpec, ConformSpec | H5DimProofs, H5ConfProofs, H5ConfValue, H5ConfGood, H5ConfTree, H5ConfFile | P_H5Conform |
| HDF5 types of attributes | H5AttrMapModel | AttrTypeSpec | H5AttrTypeProofs | P_H5AttrType |
| HDF5 types of written values | | WrittenTypeSpec | H5WrittenType | P_H5WrittenType |
| HDF5 empty fill values | H5PipeModel (`asksFill`) | EmptyFillSpec, EmptyFilterSpec | H5EmptyFill, H5EmptyFilter | P_H5EmptyFill, P_H5EmptyFilter |
| HDF5 hostile bytes | | HostileSpec | H5Hostile | P_H5Hostile, P_H5Root |
| CDF crashes | CdfReaderModel | CrashSpec | CdfCrash, CdfCrashSure | P_CdfCrash |
| CDF crashes in reading | CdfReaderModel | odd_fill in P_CdfReadCrash, ArraySpec (volume) | CdfReadCrash | P_CdfReadCrash |
| CDF slices out of range | CdfReaderModel | SliceSpec, ArraySpec | CdfSlice, CdfMissing, CdfCut | P_CdfUnchecked, P_CdfRecPast, P_CdfScalar |
| HDF5 slices out of range | H5RecordModel | RecordSpec | H5RecordProofs, P_H5Record | P_H5Past, P_H5Scalar |
