# Formal model of RockRobotic/copc-lib (cpp) in Coq 8.16.1

Source modelled: `/repo/cpp` (headers in `include/`, sources in `src/`) and
`/repo/python/copclib/mp/*.py`, `/repo/python/bindings.cpp` (pickle parts).
The code was read as text; nothing was built or run.

## 1. Shape of the model

* `theories/Model*.v` – executable Gallina model, function by function, each
  definition citing file and lines.  No proofs of properties in these files.
* `theories/Spec*.v` – small specifications written without the model's helpers.
* `theories/Proof*.v` – lemmas and proofs.
* `theories/Prop*.v` – only the property theorems (`exact lemma`), the examples
  showing that hypotheses are met, and `Print Assumptions` for each theorem.

Common decisions:

* **Outcome.** A C++ call is `Ok a`, `Throw` (an exception) or `UB` (undefined
  behaviour: signed overflow, out-of-range float-to-int conversion, reading past
  an array, null dereference).  UB is never silently assumed away.
* **Integers** are `Z` with the range of the C++ type as an explicit
  well-formedness predicate; wrap-around (`uint8/16/32/64` narrowing) is written
  as `mod 2^n`; signed overflow is `UB`.
* **Doubles** are Flocq `binary64` (IEEE-754, round to nearest even); the bit
  pattern (NaN payload included) is what is stored in files.  `float` is Flocq
  `binary32`.
* **Bytes** are `list Z` with values 0..255; little-endian codecs.
* **Streams.** An output stream is (bytes, position, failed flag); writing
  overwrites/extends at the position.  An input stream is (bytes, position,
  eof/fail flag).
* **LAZ codec** (lazperf point compressor/decompressor and chunk-table
  arithmetic coder): a record `codec` of four functions, quantified over in every
  theorem.  Theorems that need decompression to undo compression carry the
  hypothesis `lossless cd` (SpecWriter.v): "decompressing n points from
  compress(data) followed by anything gives data back".  The codec `verbatim`
  meets it (SampleWriter.v, `verbatim_lossless`).
* **lazperf's plain serialisation** (LAS 1.4 header, VLR / EVLR headers,
  copc_info, extents, extra-bytes, WKT and LAZ VLRs) is external code: it is
  modelled concretely from the LAS 1.4 / COPC 1.0 layouts.  This is part of the
  trusted base.
* **Hash-map and pointer-set iteration order** is an arbitrary permutation
  oracle; theorems quantify over it.
* **Files the reader opens** are arbitrary byte strings; recursion on page trees
  uses explicit fuel, and out-of-fuel is a distinct outcome excluded by theorems.

## 2. Per-property plan

The theorems of property Cnn are the `Theorem Cnn_...` of the Prop files; MANIFEST.json
lists them.  "refuted" marks properties whose full statement is false of the code: a
`_refuted` theorem gives a witness and the other theorems the strongest conditional
statement proved.

| id | modelled (Model file) | theorems in | proof |
|----|----------|----|-------|
| C01-C05 | key.cpp/key.hpp over int32 with UB on overflow (ModelKey) | PropKey | integer arithmetic with div/mod by powers of two; chain by induction on depth |
| C06 | entry.hpp, node.hpp byte codec (ModelEntry) | PropKey | little-endian codec lemmas |
| C07 | point.hpp bit accessors (ModelPoint) | PropPoint | finite sweep over all bytes lifted to a theorem (domain is finite) |
| C08 | point.cpp Pack/Unpack | PropPoint | codec composition, induction on extra bytes |
| C09, C10, C16, C20, C62 | utils.hpp scaling in binary64/32, header.hpp scaling | PropPoint, PropScale | Flocq error analysis; finite sweep for the 65536 angles.  C20: stated bound proved under finiteness and int32 range; C62 refuted in part |
| C11-C14 | points.cpp/.hpp (ModelPoints) with a store of shared point objects | PropPoints | list induction; history induction; aliasing witness |
| C15 | point.cpp operator== | PropPoint | binary64 comparison lemmas |
| C17, C18, C36 | header.cpp, laz_base_writer.cpp, copc_writer_internal.cpp (ModelHeader, ModelWriter) | PropConfig, PropWriter | codec composition, length bookkeeping |
| C19, C21, C23, C50, C63 | header.cpp, box.cpp, key.cpp, copc_reader.cpp (ModelGeom, ModelReader) | PropGeom, PropReader | binary64 comparison lemmas, filter lemmas |
| C22 | box.cpp Box(key, header) | PropGeom | real arithmetic for the exact part, Flocq monotonicity for binary64, witness for the failure |
| C24-C27 | extents.cpp, vlr.cpp, las/utils.cpp, laz_config.cpp (ModelExtents, ModelVlr, ModelConfig) | PropConfig | codec lemmas, slot arithmetic |
| C28-C31, C37-C43 | copc_writer_*.cpp, laz_base_writer.cpp, laz_writer.cpp (ModelWriter) | PropWriter | invariants over every writer history; witnesses for the refuted parts |
| C32-C35, C44-C47, C53, C61 | copc_base_io.cpp, copc_reader.cpp, base_reader.cpp (ModelReader) | PropRound, PropReader, PropData, PropOpen | well-formed page tree predicate on file bytes; the writer establishes it, the reader is correct on it for every query history |
| C48, C49, C51, C52, C55 | copc_reader.cpp queries, decompressor.hpp | PropReader, PropData | induction over node list / depth |
| C54 | laz_writer.cpp, laz_reader.cpp (ModelLazReader) | PropLaz | history induction |
| C56, C57 | mp/transform.py, mp/read.py, mp/utils.py (ModelMp) | PropMp, PropMp2, PropMp3, PropMp4 | invariants over every schedule, permutation invariance over completion orders, composed with the writer/reader round trip |
| C58 | bindings.cpp pickle tuples (ModelPickle) | PropConfig | round trip through tuple functions |
| C59, C60, C64 | copc_config.*, laz_config.*, extents.cpp, InitWriter (ModelConfig) | PropConfig | heap of header / info / extent objects for sharing, record update lemmas |
| C65, C66 | point.cpp copy constructor, key.cpp ToString | PropExtra | record lemmas; injectivity of decimal text |
| C67, C69 | points.cpp Within/GetWithin; bindings.cpp Points sequence protocol (ModelPy) | PropPy | list induction; arithmetic of slices against a range specification |
| C68, C71, C72 | writer FindNode, compressor.hpp, decompressor.hpp (ModelWriter, ModelLazFns) | PropWriter2 | history induction; equality of the chunk written |
| C70, C73 | comparison operators, list constructors, Resolution, GetDepthAtResolution (ModelEq) | PropEq | binary64 comparison lemmas, exactness of division by powers of two |
| C74 | accessors of extents.hpp, SetGpsTimeBit, LazConfigWriter(LazConfig) (ModelAccess) | PropAccess | slot arithmetic, bit lemmas |
| C75, C76 | every write and seek of Writer / LazWriter / Close as a trace (ModelTrace), all cut points | PropCrash | trace executes to the model's stream; windows a trace leaves alone; induction over the trace |
| C77 | Close after Close threw, ~Writer (ModelWriter, PropRetry) | PropRetry | page trees only grow; each cause of the exception persists; witnesses |
| C78 | the buffered std::fstream under FileWriter/LazFileWriter (ModelFile) | PropDisk | any buffering schedule is a prefix of the write sequence (ProofFile2), then C75 |
| C79 | FileWriter / LazFileWriter after Close (ModelFile) | PropDisk | a shut stream takes nothing; induction over the calls |
| C80 | FileReader::Close and every query after it (ModelClosed) | PropClosed | agreement of closed and open queries by structural induction; all pages loaded after GetAllNodes |
| C81 | Readers that share a stream's error flags (ModelShare) | PropClosed | simulation: safe queries leave the flags alone |
| C82 | every query of the COPC reader on arbitrary bytes | PropUntrusted | an invariant of the page table that holds for any file, kept by every query |
| C83 | opening (base_reader.cpp, copc_reader.cpp:17-71) on arbitrary bytes | PropUntrusted | totality of the decoders on long enough input, positions of the records |
| C84 | the copying loops of example/example-writer.cpp:29-50 on top of the reader and the writer of the model (ModelCopy) | PropCopy | the loop refines a session of AddNodeCompressed calls; the session theorems (C32-C35) and the reader theorems (C51, C55) give both sides |
| C85 | the writers' constructors with stack unwinding (ModelLife): make_unique<WriterInternal> throwing, ~BaseWriter calling BaseWriter::Close, BaseFileWriter opening the path | PropLife | case analysis on the format; the format survives copying, overriding and opening |
| C86 | two complete writing sessions whose calls are permutations of each other (configuration changes in the same relative order), read back by two readers | PropOrder | whether AddNode accepts is a function of the call and the fixed parts of the configuration (invariant of the session); distinct keys make the view of the log a function of the set of calls; then C30, C32-C35 |
| C87 | the loop of example-writer.cpp:80-135 over a Reader and a Writer (key tests, GetWithin, Points(vector), ToPointFormat, AddNode), and queries on the file it leaves | PropTrim | induction over the loop gives a session of a Writer; a decoded point packs to a record that decodes to it again (repack_exact); cells give the point selection; then C30, C32-C34, C48, C51 |
| C88 | programs over Writer objects: constructor, copy, assignment, calls, Close, destructor (ModelHandles: objects as numbers of a pool of writers, reference counts, std::terminate); copies of LazWriter with shared stream and own counters | PropHandles | projection: induction over the program shows each file's writer makes the run of a single Writer (`lone`) on the calls that reach it, hence a complete session (C32 applies); an invariant for files without objects; computed witnesses for the refuted parts |
| C89 | constructors on a stream with contents at a position (ModelReuse) | PropReuse | simulation: the old stream is the new one followed by the rest of the old bytes (`over`), preserved by every call; Close writes only behind the chunks, into the 8 bytes of the table offset and before them (`keeps`); computed witnesses for the refuted parts |
| C90 | nothing new: the Writer and Reader models | PropTotal | the header's count is the sum over the nodes that AddNode returned (C30); the listed nodes are a sublist of them without repeated keys (C33), all counts are positive, so the sums agree exactly when nothing is left out; computed witness for a key added twice |
| C91 | example-writer.cpp ResolutionTrimFileExample: the selection loop (ModelThin), over the Reader and copying models | PropThin | selected nodes are the stored ones up to the depth (C44, C48); GetAllPoints of a copy is the union over the copied nodes (C84, C61); the depth loop stops at the same level when the hierarchy is cut there; computed witness for a hierarchy without a root node |
| C92 | assignment to the shared header of the configuration (ModelAssign), over the Writer model | PropAssign | every call and Close commute with erasing the counts of the header, so an assignment and the member-wise edit lead to the same writer up to these; computed witnesses for other scale, format and COPC flag |
| C93 | the loop over nodes into a LazWriter (ModelExport), over the Reader and LazWriter models | PropExport | each iteration appends the node's chunk; front-to-back decompression of the concatenation by induction over the loop (laz_read_gen); computed witness for a node without points |
| C94 | transform_multithreaded with keyword arguments, dictionaries and completed_callback (ModelCallback), over the process pool of ModelMp | PropCallback | the loop with a callback and the loop without simulate each other (erasing the callback's state and the dictionaries); the calls by induction over the completed futures; computed witness for a reserved name |
| C95 | no new definitions: the Writer, Reader and box models together | PropValid | the points of every node of a written file are those of the call that counts (one file content per node), composed with C52 and C51; computed witness for a point that rounding takes out of the bounds |
| C96 | extent objects held by pointer: a heap of objects and the slots of the Writer's extents (ModelPut), over the Writer model | PropPut | invariant: the extents in the Writer are the values of the objects in its slots; every other call commutes with replacing the extents, so the program is the other calls followed by setting all extents; computed witnesses for the sharing |
| C97 | assignment of a whole extents object: format, flag and pointers (ModelPut) | PropPut | with the Writer's shape, the step is a change of pointers of C96; computed witnesses for another flag, fewer and more entries |
| C98 | ValidateSpatialBounds and box queries on copies of chunks | PropCopyValid | from C84: the nodes of the copy have the keys and the points of the copied ones, and the bounds are the source's; then C52, C51 on both files |
| C99 | any number of copies, each through a Reader with its configuration (SpecAgain) | PropAgain | a Reader of a written file has a `ready` and `storable` configuration; `sound` files are closed under copying, induction over the number of copies |
| C100 | copies by decompressing and compressing again | PropRecomp | the run is the run of AddNodeCompressed calls with `cd_comp` of the records (ProofCopy), a `written` file; C84_own_chunks gives sound chunks, so that C99 applies to later copies |

Properties whose full statement is false of the code are kept in full in
`properties.jsonl` with the exception named in parentheses.

## 3. Trusted base

* Coq 8.16.1 kernel (including `vm_compute`, used in witnesses, sample files and finite sweeps).
* Standard-library axioms only; section 5 gives them per theorem.
* The reading of the C++ and Python code as text: `Model*.v` says for each definition
  which lines it models and where it simplifies.
* Implementation-defined choices: LP64, two's complement narrowing, IEEE double
  without extended precision, little-endian host, `char` read as a byte 0..255.
* lazperf, the C++ standard library, pybind11, CPython, numpy and concurrent.futures,
  as described in section 4.

## 4. What is modelled and what is not

Modelled (function by function, with citations):

* `hierarchy/key.*`, `entry.hpp`, `node.hpp`, `page.*`, `internal/{page,hierarchy}.hpp`: all of it.
* `geometry/vector3.hpp`, `box.*`: all but the printing functions.
* `las/point.*`, `points.*`, `utils.*`, `header.*`, `vlr.*`, `laz_config.*`: all but printing.
* `copc/info.*`, `extents.*`, `copc_config.*`: all but printing.
* `laz/compressor.hpp`, `decompressor.hpp`: control flow around the codec; the codec is a parameter.
* `io/*`: Reader (every query), FileReader (open and closed), LazReader (one bulk read per reader), Writer, LazWriter, FileWriter, LazFileWriter, BaseWriter, InitReader.
* `python/copclib/mp/*.py`; of `python/bindings.cpp`: pickling, the Points sequence protocol, the array getters and setters.

Simplifications and omissions:

* **lazperf** is not in /repo.  Its plain records (LAS 1.4 header, VLR/EVLR headers, copc_info, LAZ VLR, extra bytes, WKT)
  follow the LAS 1.4 R15 / COPC 1.0 layouts.  When a file is opened the model checks what copc-lib and lazperf's
  generic reader check first (signature, compressed bit, header fields); other checks lazperf makes when opening are assumed
  to pass, and a header that ends inside the file is UB in the model (nothing is claimed then).  The chunk table's coding and the number of
  bytes a decompressor consumes are parameters (`cd_table`, `cd_untable`, and `used`/`exact` for LazReader).
* **Streams.**  An output stream starts empty (a new file or string stream), optionally with a capacity after which it
  fails.  Input streams are byte strings with a fail flag; in-memory and file streams differ in seeking past the end, and both
  are covered.  The buffer of a FileWriter's fstream is modelled in ModelFile (C78): bytes reach the disk in order, at
  any time, all of them before a seek.  Bytes appended or changed by other programs while a reader is open are not modelled.
* **Writer.**  Calls change the header, info and extents through the pointers the API hands out field by field (`WSetHeader`, `WSetInfo`,
  `WSetExtent`).  Assigning a whole header is
  C92 (ModelAssign), a whole info is `WSetInfo`, extent objects shared with a program are C96 and a whole extents object C97 (ModelPut).  A program that stops half way (C75, C76) leaves the bytes of a
  prefix of the write sequence: a killed process, not a machine that loses or reorders cached pages.
  The order in which hash maps and pointer sets are walked is an arbitrary parameter.
* **Reader.**  LazReader: the first GetPoints/GetPointData call on a reader (lazperf's decompressor keeps its place).
* **Python.**  concurrent.futures by its documented behaviour: every schedule of tasks on workers, every completion order.
  User functions are deterministic functions of the points, node and header (their keyword arguments fixed; the names are checked in C94); the `reader` argument,
  progress bars, `mp_init_function` and a `completed_callback` (C94) that itself uses the writer are not modelled.  Slices follow CPython's
  PySlice_GetIndicesEx; indices beyond ssize_t are not modelled.  Objects passed as None are null pointers (UB on use).
* **Not modelled:** `ToString`/`operator<<` other than VoxelKey's, logging, file-system errors when FileReader/FileWriter open a
  path (a file that cannot be opened throws), moving a Reader (FileReader, FileWriter and LazFileWriter cannot be copied), destructors other than those of Writer, WriterInternal, LazWriter (C77, C88) and ~BaseWriter's in a failing constructor (C85), thread safety of one object used from several threads, memory exhaustion.

Files:

* `Base` – common vocabulary of the model: outcomes of C++ calls, byte strings,
* `BaseFacts` – lemmas about Base.v
* `ModelAccess` – accessors of the per-dimension extents, and of the header's GPS time bit.
* `ModelAssign` – assigning a whole header to the header of a Writer's configuration.
* `ModelCallback` – transform_multithreaded with keyword arguments for the transform function, a dictionary that it
* `ModelClosed` – the answers of Reader queries, and a FileReader after Close.
* `ModelConfig` – file configurations, by value and with their shared pointers.
* `ModelCopy` – copying nodes from a Reader to a Writer without decompressing them.
* `ModelEntry` – hierarchy entries and nodes.
* `ModelEq` – remaining comparison operators and Resolution.
* `ModelExport` – writing the nodes of a COPC file into a LAZ file.
* `ModelExtents` – per-dimension extents and their VLRs.
* `ModelFile` – files written through a buffered std::fstream.
* `ModelFloat` – the C++ 'double' and 'float' types as IEEE-754 binary64/binary32
* `ModelGeom` – Vector3 and Box.
* `ModelHandles` – copies of a Writer and of a LazWriter.
* `ModelHeader` – the LAS 1.4 header block.
* `ModelKey` – model of VoxelKey.
* `ModelLazFns` – laz::Compressor::CompressBytes and laz::Decompressor::DecompressBytes on byte vectors.
* `ModelLazReader` – LazReader.
* `ModelLife` – constructing writers.
* `ModelMp` – the Python multiprocessing helpers.
* `ModelPickle` – Python pickling of the library's value classes.
* `ModelPoint` – las::Point and the scaling helpers.
* `ModelPoints` – las::Points: a container of shared_ptr<Point>.
* `ModelPut` – extent objects that a program shares with a Writer.
* `ModelPy` – the Python sequence protocol of copclib.Points.
* `ModelReader` – reading COPC files: opening, hierarchy, node data, queries.
* `ModelReuse` – writers on a stream that already has contents.
* `ModelShare` – several Readers on one std::istream
* `ModelStream` – output streams, key-indexed containers and the LAZ codec interface.
* `ModelThin` – trimming a file to a resolution.
* `ModelTrace` – the sequence of writes and seeks that the writers send to their stream, and the
* `ModelTrim` – trimming a file to a box.
* `ModelVlr` – variable length records.
* `ModelWriter` – writing LAZ and COPC files.
* `ProofCallback` – transform_multithreaded with a callback
* `ProofClose` – what Close writes
* `ProofClose2` – Close as a whole
* `ProofClosed` – queries on a closed FileReader
* `ProofConfig` – configurations: isolation, overrides, aliasing (C27, C59, C60, C64)
* `ProofCopy` – copying nodes from file to file
* `ProofCount` – sizes of the writer's containers, and when Close succeeds
* `ProofData` – node data, point queries
* `ProofData2` – ValidateSpatialBounds; data of nodes by key; queries that leave the stream good
* `ProofData3` – queries for data that the file has leave the stream good
* `ProofExport` – writing the nodes of a COPC file into a LAZ file
* `ProofExtents` – extents, VLR payloads (C24-C27)
* `ProofFile` – reading a file by position
* `ProofFile2` – buffered files and the traces of the writers
* `ProofFloat` – facts about the binary64 operations of ModelFloat.v
* `ProofGeom` – proofs about boxes (C19, C21-C23, C63)
* `ProofHandles` – lemmas about copies of a Writer
* `ProofHeader` – LAS header round trip (C17, C18)
* `ProofHier` – the hierarchy of a closed file
* `ProofKey` – proofs about VoxelKey
* `ProofLaz` – LAZ files
* `ProofLazRound` – reading back what a LazWriter wrote
* `ProofMp` – the process pool under every schedule
* `ProofMp2` – reading with a process pool
* `ProofMp3` – transforming with a process pool into a COPC file
* `ProofMp4` – what a transformed file holds
* `ProofMp5` – when transforming succeeds
* `ProofMp6` – transforming into a LAZ file
* `ProofOpen` – opening files
* `ProofOpen2` – opening written files
* `ProofOpen3` – the records of an arbitrary file that a reader opened
* `ProofOpen4` – opening a file is defined when its records lie in it
* `ProofOrder` – the order of AddNode calls does not matter
* `ProofPages` – writing the pages
* `ProofPickle` – C58
* `ProofPoint` – proofs about entries and points
* `ProofPoint2` – layout, format conversion, equality, scan angle
* `ProofPoints` – proofs about the Points container (C11-C13)
* `ProofPoints2` – proofs about the Points container, continued (C11-C13)
* `ProofPoints3` – array getters / setters of Points (C13)
* `ProofPy` – lemmas for the Python sequence protocol
* `ProofReader` – loading pages: what the Reader's hierarchy holds
* `ProofReader2` – reading a page keeps the hierarchy consistent; FindNode
* `ProofReader3` – every query keeps the hierarchy consistent; loading whole subtrees
* `ProofReader4` – loading whole subtrees: GetAllChildrenOfPage, GetAllNodes, GetPageList
* `ProofReader5` – loading terminates on finite page trees, whatever the file and the stream's state
* `ProofReader6` – queries on stored hierarchies
* `ProofReject` – refused calls and their effects; calls after Close
* `ProofResults` – what a closed COPC file contains, in terms of the calls made
* `ProofRetry` – Close after a Close that threw
* `ProofReuse` – a writer on a stream with old contents, standing at its beginning, does what it does on an empty stream
* `ProofRound` – reading back what a Writer wrote
* `ProofScale` – IEEE error analysis of ApplyScale / RemoveScale (C09) and
* `ProofScale2` – what ApplyInverseScale after ApplyScale computes, for every input with a finite result
* `ProofSession` – whole sessions: constructor, calls, Close
* `ProofShare` – readers that share a stream
* `ProofStream` – facts about streams and key-indexed containers
* `ProofTotal` – the point count of the header and of the nodes
* `ProofTrace` – the listed stream operations are those of the writers
* `ProofTrace2` – parts of the stream that a sequence of operations leaves alone
* `ProofTrace3` – the contents of a COPC file while it is being written
* `ProofTrace4` – COPC files whose header area was only partly written
* `ProofTrace5` – the contents of a LAZ file while it is being written
* `ProofTrace6` – chunks survive everything that happens after they are written
* `ProofTree` – the tree of pages that Close builds
* `ProofTrim` – trimming a file to a box
* `ProofUntrusted` – queries on arbitrary files
* `ProofWriter` – chunks: invariant of the base writer
* `ProofWriter2` – sequences of calls: the stream and the configuration
* `ProofWriter3` – sequences of calls: the pages
* `ProofWriter4` – sequences of calls: nodes and pages
* `PropAccess` – C74: accessors of extents and configurations
* `PropAgain` – C99: copies of copies
* `PropAssign` – C92: assigning a header to a Writer
* `PropCallback` – C94: transform_multithreaded with a completed_callback
* `PropClosed` – property theorems C80 (a FileReader after Close) and C81 (several Readers on one stream)
* `PropConfig` – property theorems C17, C18, C24, C25, C26, C27, C58, C59, C60, C64
* `PropCopy` – C84: copying nodes from file to file
* `PropCopyValid` – C98: ValidateSpatialBounds and box queries on copies
* `PropCrash` – C75, C76: programs that are killed while a Writer is at work
* `PropData` – property theorems C51, C52, C55, C61: point data and spatial queries of a Reader
* `PropDisk` – C78: what a FileWriter leaves on disk; C79: a FileWriter after Close
* `PropEq` – C70, C73: comparison operators and list constructors; the resolution of a key
* `PropExport` – C93: writing the nodes of a COPC file into a LAZ file
* `PropExtra` – C65, C66: copies of points, the text of a voxel key
* `PropGeom` – property theorems C19, C21, C22, C23, C63
* `PropHandles` – C88: copies of a Writer
* `PropKey` – property theorems C01-C05
* `PropLaz` – C54: what a LazWriter wrote is what a LazReader reads
* `PropLife` – C85: constructing a writer
* `PropMp` – property theorem C57: reading with a process pool
* `PropMp2` – C56: transforming a file with a process pool
* `PropMp3` – C56: exceptions, closing, and concrete transformations
* `PropMp4` – C56 for a LazWriter
* `PropOpen` – property theorems C53: the WKT of an arbitrary file
* `PropOrder` – C86: the order in which nodes are added does not matter
* `PropPoint` – property theorems C06-C10, C14-C16, C20, C62
* `PropPoints` – property theorems C11-C13
* `PropPut` – C96: extent objects given to a Writer; C97: assigning whole extents
* `PropPy` – C67, C69: box filters of a Points container, and its Python sequence protocol
* `PropReader` – property theorems C44-C50: what a Reader finds in the hierarchy of a file
* `PropRecomp` – C100: copies whose nodes are decompressed and compressed again
* `PropRetry` – C77: a Close that throws
* `PropReuse` – C89: writing to a stream that already has contents
* `PropRound` – property theorems C32-C35: reading back what a Writer wrote
* `PropScale` – C20 for every input: what ApplyInverseScale makes of ApplyScale's result
* `PropThin` – C91: trimming a file to a resolution
* `PropTotal` – C90: the point count of the header and the points a Reader returns
* `PropTrim` – C87: trimming a file to a box
* `PropUntrusted` – property theorem C82 (reading files from an untrusted source)
* `PropValid` – C95: ValidateSpatialBounds and box queries on a file that a Writer wrote
* `PropWriter` – property theorems C28-C31, C36-C43: what a Writer or LazWriter leaves in the file
* `PropWriter2` – C68, C71, C72: FindNode on a writer; compressing outside a writer
* `SampleMp` – concrete programs that transform the sample file
* `SampleReader` – concrete files, used to show that the theorems about Reader apply and where they do not
* `SampleWriter` – concrete sessions, used to show that the theorems' hypotheses are met
* `SpecAgain` – copies of copies: files that can be copied, and what a copy keeps
* `SpecAssign` – vocabulary for assigned headers
* `SpecCallback` – vocabulary for completed_callback
* `SpecClosed` – vocabulary for closed readers and for readers that share a stream
* `SpecConfig` – vocabulary for extents and configurations
* `SpecCopy` – vocabulary for copying nodes from file to file
* `SpecCrash` – vocabulary for programs that stop half way
* `SpecData` – vocabulary for the point data of COPC files
* `SpecExport` – vocabulary for writing the nodes of a COPC file into a LAZ file
* `SpecFile` – reading fields of a file by position (LAS 1.4 R15)
* `SpecGeom` – boxes as sets of real points, and the exact octree subdivision
* `SpecHandles` – vocabulary for copies of a Writer
* `SpecHeader` – vocabulary for the LAS header
* `SpecHier` – what a hierarchy stored in a file is (COPC 1.0)
* `SpecKey` – what an octree key, its ancestors and its children are, independent of
* `SpecLaz` – vocabulary for LAZ files written by LazWriter
* `SpecLazRound` – vocabulary for reading back what a LazWriter wrote
* `SpecMp` – vocabulary for the Python multiprocessing helpers
* `SpecOpen` – the records of an arbitrary LAS 1.4 file, by position
* `SpecOrder` – vocabulary for writing the same nodes in another order
* `SpecPoint` – vocabulary for the point properties
* `SpecPoints` – vocabulary for the Points container properties
* `SpecPut` – vocabulary for extent objects given to a Writer
* `SpecPy` – Python's rules for indices and slices (Python language reference, "common sequence operations")
* `SpecReader` – vocabulary for reading COPC files
* `SpecReject` – calls that a Writer must refuse
* `SpecRound` – vocabulary for reading back what a Writer wrote
* `SpecThin` – vocabulary for trimming a file to a resolution
* `SpecTotal` – vocabulary for the point count of a file
* `SpecTrim` – vocabulary for trimming a file to a box
* `SpecUntrusted` – vocabulary for reading files from an untrusted source
* `SpecValid` – vocabulary for files whose points lie in their voxels
* `SpecWithin` – selecting the points of a container that lie in a box
* `SpecWriter` – vocabulary for written files

## 5. Axioms (Print Assumptions)

Every axiom below is from Coq's standard library; they enter through the real numbers
(Flocq's binary64/binary32 carry proofs about reals).

Closed under the global context (no axioms):

C01_bisect_is_child, C01_bisect_overflow_is_ub, C01_parent_of_bisect, C01_bisect_of_parent, C02_children_exact, C02_children_are_one_level_down, C03_parents_chain, C03_parents_invalid, C04_child_of_iff, C04_reflexive, C04_transitive, C04_antisymmetric, C05_partial, C05_refuted, C05_ub_region, C05_bad_depth_throws, C05_invalid_key, C06_entry_is_32_bytes, C06_entry_roundtrip, C06_entry_layout, C07_bit_fields_independent, C07_out_of_range_throws, C08_every_reachable_point_is_well_formed, C12_mismatching_point_rejected, C12_long_records_refuted, C13_coordinate_arrays, C13_integer_arrays, C13_wrong_length_throws, C13_colour_on_colourless_throws_first, C13_source_id_refuted, C13_duplicates_refuted, C14_to_point_format, C14_other_formats_throw, C17_header_size, C18_legacy_counts, C18_legacy_counts_on_disk, C21_constructor, C24_wrong_extended_rejected, C26_constructor, C26_copy_constructor, C27_undocumented_type_refuted, C27_overflow_refuted, C37_laz_close_twice, C46_well_formed_files_are_finite, C47_no_side_effects, C57_chunks, C57_zero_chunk_throws, C58_key, C58_vector, C58_node, C58_header, C58_bytes, C58_binary_guid_refuted, C59_laz_writer_refuted, C66_text_identifies_key, C69_get_item, C69_set_item, C69_get_slice, C69_zero_step_throws, C69_set_slice, C69_set_slice_wrong_length_throws, C69_iter, C69_contains, C69_empty_slice_refuted, C69_self_assignment_refuted, C70_key_equality, C70_equal_keys_equal_hashes, C70_node_equality, C70_extra_byte_fields, C70_key_from_list, C70_vector_from_list, C70_colour_from_list, C71_compresses_or_throws, C71_round_trip, C71_header_overloads, C71_no_points, C71_long_record_refuted, C74_getters, C74_setters, C74_extra_bytes, C74_gps_bit, C74_laz_config, C85_laz, C85_laz_terminated_refuted, C93_ready

Uses `ClassicalDedekindReals.sig_forall_dec`, `FunctionalExtensionality.functional_extensionality_dep`:

C22_exact_children_tile_parent, C22_exact_faces

Uses `ClassicalDedekindReals.sig_forall_dec`, `ClassicalDedekindReals.sig_not_dec`, `Classical_Prop.classic`, `FunctionalExtensionality.functional_extensionality_dep`:

C08_record_length, C08_layout, C08_unpack_of_pack, C09_repack_gives_the_stored_integer, C09_outside_the_region_it_can_fail, C10_finite_quotient, C10_infinite_quotient_throws, C10_pack_succeeds_iff_in_range, C10_nan_is_not_rejected_refuted, C11_pack_size_and_order, C11_unpack_rejects_ragged_arrays, C11_unpack_in_order, C11_pack_of_unpack, C12_containers_stay_uniform, C12_aliasing_refuted, C15_equality_symmetric, C15_equality_reflexive, C15_equal_points_agree, C15_not_transitive_refuted, C16_angle_within_one_unit, C16_exact_refuted, C17_header_roundtrip, C17_rejected, C17_full_guid_refuted, C19_bounds_track_points, C20_zero_offset_in_range, C20_unit_scale_in_range, C20_inverse_refuted, C20_value, C20_inverse, C20_otherwise_off, C21_constructors_agree, C21_two_dimensional_constructor, C21_list_constructor_rejects_other_lengths, C21_constructed_iff_ordered, C21_contains_point, C21_contains_box, C21_intersects, C21_relations, C22_binary64_exact_on_grids, C22_binary64_boxes_ordered, C22_binary64_lower_children_inside, C22_binary64_upper_child_overhang_refuted, C22_binary64_children_gap_refuted, C23_key_relations, C23_key_contains_point, C24_extents_roundtrip, C24_extended_roundtrip, C24_wrong_count_rejected, C25_reslot, C26_list_constructor_bounds, C26_list_constructor_two, C26_negative_variance_refuted, C27_record_length, C28_chunks_kept, C29_write_order, C29_tiling, C29_laz_tiling, C30_point_count, C30_laz_point_count, C30_laz_running_counts, C31_bad_calls_throw, C31_no_effect, C31_same_file, C31_oversize_refuted, C32_find_added, C32_find_absent, C32_other_page_refuted, C33_all_nodes, C33_page_list, C34_compressed, C34_records, C34_points_of_records, C34_points, C34_absent, C35_opens_with_the_configuration, C35_reader_in_use, C35_constructor_settings, C35_empty_descriptor_refuted, C36_directories, C36_laz_directories, C37_close_twice, C38_other_calls, C38_refuted, C39_close_succeeds, C39_refuted, C40_positive, C40_refuted, C41_hierarchy, C41_move, C41_move_to_current, C41_second_move_refuted, C41_move_back_refuted, C41_dropped_page_refuted, C42_readd, C42_other_page_refuted, C43_refuted, C43_first_failure, C43_constructor_refuted, C43_stays_failed, C43_close_reports, C43_closed_means_good, C44_find, C44_history_independent, C44_far_pages_refuted, C45_children, C45_children_after_all_nodes, C45_no_page, C45_shallow_node_refuted, C46_terminates, C46_self_reference_refuted, C47_find, C47_all_nodes, C48_depth, C48_max_depth, C49_nodes_at_resolution, C49_all_nodes_without_limit, C50_boxes, C50_within_subset_of_intersect, C51_points_in_box, C51_stray_points_refuted, C52_validate, C52_verbose_agrees, C52_verbose_overflow_refuted, C53_evlr, C53_laz_evlr, C53_none, C53_vlr_misread, C53_vlr_refuted, C54_config, C54_records, C54_points_of_records, C54_points, C54_is_copc_refuted, C54_long_records_refuted, C54_no_bytes_refuted, C55_short_records, C55_long_records_overrun, C55_long_records_refuted, C56_find, C56_absent, C56_all_nodes, C56_chunk, C56_points, C56_settings, C56_bounds, C56_schedule_independent, C56_succeeds, C56_close_succeeds, C56_exceptions, C56_binary_guid, C56_binary_guid_refuted, C56_other_format_refuted, C56_laz_points, C56_laz_settings, C57_visits_once, C57_chunk_by_chunk, C57_any_order, C57_exceptions, C57_bad_arguments, C57_all_nodes, C57_nodes_of_resolution, C57_given_nodes, C57_concat, C57_map, C57_negative_chunk_refuted, C59_isolation, C59_defined, C59_writer_value, C59_own_handle, C59_own_handle_info, C59_own_handle_extent, C60_overrides, C60_no_overrides_is_copy, C60_bad_format_rejected, C60_constructed_configs_qualify, C61_queries_for_intact_data, C61_truncated_chunk_refuted, C61_truncated_data_refuted, C62_header_remove_scale, C62_out_of_range_is_not_rejected_refuted, C63_root_box_starts_at_header_min, C63_root_box_contains_header_box, C63_root_box_misses_header_max_refuted, C63_span, C63_root_box_contains_usual_header_box, C64_reslot_shares_refuted, C64_copy_is_independent, C65_copy, C65_copy_equal, C67_get_within, C67_within, C68_find_node, C68_returned_node, C68_moved_page_refuted, C69_assignment_breaks_uniformity_refuted, C69_none_refuted, C69_contains_equal_refuted, C70_vector_equality, C70_extent_equality, C70_extra_byte_fields_refuted, C70_max_box, C72_compressed_outside, C72_laz_compressed_outside, C73_resolution_exact, C73_child_has_half, C73_depth_of_resolution, C73_no_spacing_refuted, C75_trace, C75_laz_trace, C75_unclosed, C75_laz_unclosed, C75_interrupted, C75_interrupted_copc, C75_laz_interrupted, C75_failed_close, C76_chunk_survives, C76_moments, C76_laz_chunks_survive, C77_add_after_failed_close_refuted, C77_destructor_after_failed_close_refuted, C77_close_retried_refuted, C77_chunk_table_retried_refuted, C77_failed_close_keeps_chunks, C78_disk_after_close, C78_laz_disk_after_close, C78_killed, C78_killed_not_mistaken, C78_laz_killed, C78_chunks_once_closing, C78_last_flush_lost, C78_close_reports_refuted, C78_chunk_lost_refuted, C79_closed_file_is_final, C79_add_after_close_refuted, C79_closed_laz_file_is_final, C79_laz_write_after_close_refuted, C80_never_wrong, C80_nodes_survive, C80_find, C80_point_data_gone, C80_after_close_refuted, C81_independent, C81_truncated_chunk_refuted, C82_defined, C82_nodes_defined, C82_cut_page_refuted, C82_record_length_refuted, C82_deepest_node_refuted, C83_opening_defined, C83_laz_opening_defined, C83_session_defined, C83_full_guid_refuted, C84_find, C84_absent, C84_all_nodes, C84_chunk, C84_records, C84_points, C84_page_list, C84_configuration, C84_succeeds, C84_same_pages, C84_own_chunks, C84_recompressed, C84_other_format_refuted, C85_built, C85_when_built, C85_refused, C85_overrides_refused, C85_overrides_never_terminate, C85_terminated_refuted, C85_from_reader, C85_laz_from_reader, C85_from_format, C85_path_refused, C85_old_file_lost_refuted, C86_settled, C86_accepted, C86_find, C86_all_nodes, C86_page_list, C86_compressed, C86_records, C86_points, C86_configuration, C86_repeated_key_refuted, C87_find, C87_absent, C87_all_nodes, C87_points, C87_all_points, C87_same_as_query, C87_succeeds, C87_empty_crossing_refuted, C88_files, C88_one_session, C88_find, C88_left_behind, C88_copy_destroyed_refuted, C88_vector_growth_refuted, C88_laz_closed_copies, C88_laz_copies_refuted, C89_results, C89_same_state, C89_same_file, C89_chunks, C89_laz_results, C89_longer_refuted, C89_second_file_refuted, C89_laz_second_file_refuted, C90_all_nodes, C90_once_each, C90_all_points, C90_added_again_refuted, C91_all_points, C91_depth, C91_nodes, C91_same_resolution, C91_gap_refuted, C92_as_edits, C92_file, C92_other_scale_refuted, C92_other_format_refuted, C92_not_copc_refuted, C93_records, C93_points, C93_configuration, C93_succeeds, C93_own_chunks, C93_through_points, C93_empty_node_refuted, C94_same_file, C94_same_runs, C94_calls, C94_succeeds, C94_protected_argument, C94_reserved_name, C94_reserved_name_refuted, C95_validates, C95_points, C95_grid_points, C95_box_query, C95_read_points_on_grid, C95_rounding_refuted, C96_same_writer, C96_file, C96_put_shows, C96_value_stays, C96_later_change, C96_shared_refuted, C96_two_dimensions_refuted, C97_as_members, C97_shares, C97_other_flag_refuted, C97_fewer_refuted, C97_more_refuted, C98_copy_validates, C98_same_answer, C98_box_query, C98_same_query, C99_configuration, C99_copy, C99_generations, C99_points, C99_validates, C99_written_sound, C100_recompressed, C100_points, C100_validates, C100_succeeds


## 6. Testing the theorems

`seeded/LOG.jsonl` has one line per edit of the model (in a scratch copy): definition, edit, claim it breaks,
theorems whose proof then fails, theorems added or tightened because none failed.  A theorem counts as failed when its proof, or
a lemma it depends on, no longer compiles.
