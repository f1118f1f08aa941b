{"id": "C01", "title": "Child and parent keys are inverse", "statement": "For a valid VoxelKey, Bisect(direction) is the octree child at depth d+1 with coordinates 2x+b0, 2y+b1, 2z+b2 (b = the three low bits of direction), GetParent() of it is the original key, and every valid key of depth >= 1 is the Bisect of its own GetParent in exactly one direction 0..7.", "quantifier": "all int32 keys and all directions whose child coordinates fit int32 (otherwise the arithmetic is undefined behaviour and is reported as such)", "why_tests_cant": "2^128 keys; tests sample a handful", "anchors": ["cpp/src/hierarchy/key.cpp:Bisect,GetParent"]}
{"id": "C02", "title": "GetChildren enumerates exactly the children", "statement": "GetChildren() returns 8 pairwise different keys, and a key k of depth >= 1 is in the list if and only if k.GetParent() is the key.", "quantifier": "all valid keys with representable children, all candidate keys k", "why_tests_cant": "the 'and no others' direction ranges over all keys", "anchors": ["cpp/src/hierarchy/key.cpp:GetChildren"]}
{"id": "C03", "title": "GetParents is exactly the ancestor chain", "statement": "GetParents(include_self) of a valid key is the list, nearest first, of its ancestors down to depth 0 (d entries, plus the key itself first when include_self); the i-th entry has every coordinate shifted right by i; invalid keys give an empty list.", "quantifier": "all int32 keys, both flag values", "why_tests_cant": "unbounded chain length", "anchors": ["cpp/src/hierarchy/key.cpp:GetParents"]}
{"id": "C04", "title": "ChildOf is the octree containment order", "statement": "k.ChildOf(p) is true exactly when k and p are valid, p.d <= k.d and p's coordinates are k's shifted right by k.d-p.d; on valid keys it is reflexive, transitive and antisymmetric.", "quantifier": "all pairs/triples of int32 keys", "why_tests_cant": "order laws quantify over all triples", "anchors": ["cpp/src/hierarchy/key.cpp:ChildOf"]}
{"id": "C05", "title": "GetParentAtDepth agrees with the parent chain", "statement": "For a valid key and 0 <= depth <= d, GetParentAtDepth(depth) is the ancestor found at that depth by repeated GetParent; a depth outside 0..d throws; an invalid key gives an invalid key. (False of the code when d-depth >= 31, where the float-to-int conversion is undefined.)", "quantifier": "all int32 keys and depths", "why_tests_cant": "all depths, including the conversion overflow", "anchors": ["cpp/src/hierarchy/key.cpp:GetParentAtDepth"]}
{"id": "C06", "title": "Hierarchy entries survive serialisation", "statement": "Writing an entry produces 32 bytes and reading those 32 bytes back (with anything after them) gives an entry with the same key, offset, byte size and point count, hence the same IsValid/IsPage classification.", "quantifier": "all entries of the C++ field types, all trailing bytes", "why_tests_cant": "2^256 entries", "anchors": ["cpp/include/copc-lib/hierarchy/entry.hpp:Pack,Unpack,IsValid,IsPage"]}
{"id": "C07", "title": "Point bit-field accessors are independent", "statement": "Setting any one of return number, number of returns, synthetic, key point, withheld, overlap, scanner channel, scan direction, edge-of-flight-line makes its getter return the value set and leaves every other getter unchanged; out-of-range values throw and leave the point unchanged.", "quantifier": "all byte values of both bit fields, all argument values, all pairs of accessors", "why_tests_cant": "pairs of accessors x all states", "anchors": ["cpp/include/copc-lib/las/point.hpp"]}
{"id": "C08", "title": "Packed point records have the declared size and layout", "statement": "Pack emits exactly PointRecordLength() bytes for formats 6, 7, 8 with any number of extra bytes, and Unpack of those bytes returns the same intensity, returns, flags, classification, user data, scan angle, source id, GPS time (bit for bit, NaNs included), RGB, NIR and extra bytes.", "quantifier": "all points of formats 6-8, all extra-byte lengths, all scales/offsets that let Pack succeed", "why_tests_cant": "every field combination", "anchors": ["cpp/src/las/point.cpp:Pack,Unpack", "cpp/src/las/utils.cpp"]}
{"id": "C09", "title": "Re-packing an unpacked coordinate gives the stored integer", "statement": "For every stored int32 coordinate, unpacking with (scale, offset) and packing with the same (scale, offset) gives the same integer, in IEEE double arithmetic, whenever the scale is a normal double in a sane range and |offset| <= 2^19 * 2^31 * scale (covers all survey data); outside that relation it can fail.", "quantifier": "all int32 values, all binary64 scales and offsets in the stated region", "why_tests_cant": "2^32 integers x 2^128 scale/offset pairs", "anchors": ["cpp/include/copc-lib/las/utils.hpp:ApplyScale,RemoveScale", "cpp/src/las/point.cpp:Pack,Unpack"]}
{"id": "C10", "title": "Packing rejects unrepresentable coordinates", "statement": "Pack stores round-half-away((v-offset)/scale) when that is within int32 and throws when it is outside (infinities included). (False of the code for a NaN quotient: the range test passes and the conversion is undefined.)", "quantifier": "all binary64 values, scales, offsets", "why_tests_cant": "NaN and boundary cases over 2^192 inputs", "anchors": ["cpp/include/copc-lib/las/utils.hpp:RemoveScale"]}
{"id": "C11", "title": "Point lists: Unpack(Pack) and Pack(Unpack)", "statement": "Points::Pack emits Size()*PointRecordLength() bytes; Unpack of a byte array whose length is not a multiple of the record length throws; otherwise it returns length/record points in order; packing them again with the same header gives the original bytes back when the coordinates re-pack exactly.", "quantifier": "all point lists, all byte arrays", "why_tests_cant": "unbounded lists", "anchors": ["cpp/src/las/points.cpp"]}
{"id": "C12", "title": "A Points container only holds points of its own format", "statement": "After any sequence of AddPoint, AddPoints, ToPointFormat and Unpack on one Points object, every element has the container's format id and record length; a mismatching point or list throws and adds nothing. (False of the code when a point object is shared between two containers and one of them converts format.)", "quantifier": "all operation histories, including histories over several containers sharing points", "why_tests_cant": "unbounded histories and aliasing", "anchors": ["cpp/src/las/points.cpp", "cpp/include/copc-lib/las/points.hpp"]}
{"id": "C13", "title": "Array getters and setters act element-wise", "statement": "Setting X, Y, Z, classification, point source id, red, green or blue from an array of the right length and reading the array back returns the same values and changes nothing else; wrong lengths throw and change nothing. (False of the code for point source ids above 255: the array getter truncates to 8 bits.)", "quantifier": "all point lists, all arrays", "why_tests_cant": "unbounded arrays, all 16-bit values", "anchors": ["cpp/include/copc-lib/las/points.hpp"]}
{"id": "C14", "title": "Format conversion keeps the shared dimensions", "statement": "ToPointFormat keeps coordinates, bit fields, GPS time and extra bytes, sets the record length to base size + extra bytes, makes exactly the dimensions of the new format accessible, and converting there and back restores the original point.", "quantifier": "all points, all pairs of formats", "why_tests_cant": "all field values and format pairs", "anchors": ["cpp/src/las/point.cpp:ToPointFormat"]}
{"id": "C15", "title": "Point equality", "statement": "Point::operator== is symmetric, and reflexive when no coordinate or GPS time is NaN/infinite; equal points agree on every non-coordinate field. (Not transitive in the code, because coordinates are compared with a tolerance.)", "quantifier": "all pairs/triples of points", "why_tests_cant": "laws over triples", "anchors": ["cpp/src/las/point.cpp:operator==", "cpp/include/copc-lib/utils.hpp"]}
{"id": "C16", "title": "Scan angle in degrees", "statement": "Setting the scan angle from the degrees value read from a point gives the same stored angle, for every int16 angle (False of the code: truncation loses one unit for some angles); every stored angle changes by at most one unit.", "quantifier": "all 65536 angles in binary32 arithmetic", "why_tests_cant": "exhaustive over float arithmetic", "anchors": ["cpp/include/copc-lib/las/point.hpp:ScanAngleDegrees"]}
{"id": "C17", "title": "LAS header round trip", "statement": "Every header the writer emits is 375 bytes and reads back with the same source id, encoding (plus the WKT bit), dates, format, record length, scale, offset, min/max, per-return counts, point count, EVLR offset/count, point offset, and identification strings; files without the WKT bit, not version 1.4, with another header size or with a format outside 6-8 are rejected. (False of the code for identification strings that fill their field: the read-back runs past the unterminated field.)", "quantifier": "all headers of the C++ field types", "why_tests_cant": "all field values; boundary string lengths", "anchors": ["cpp/src/las/header.cpp:ToLazPerf,FromLazPerf"]}
{"id": "C18", "title": "Legacy point count follows LAS 1.4", "statement": "The legacy 32-bit point count in the header equals the 64-bit one when it fits in 32 bits and is 0 otherwise; the legacy per-return counts are 0.", "quantifier": "all uint64 point counts", "why_tests_cant": "boundary at 2^32 needs files of 2^32 points", "anchors": ["cpp/src/las/header.cpp:ToLazPerf"]}
{"id": "C19", "title": "Header bounds tracking", "statement": "After CheckAndUpdateBounds on any sequence of points with non-NaN coordinates, the header box contains the old box and every point, and each bound is either the old bound or the coordinate of some point.", "quantifier": "all headers, all point sequences", "why_tests_cant": "unbounded sequences", "anchors": ["cpp/src/las/header.cpp:CheckAndUpdateBounds"]}
{"id": "C20", "title": "ApplyInverseScale undoes ApplyScale", "statement": "ApplyInverseScale(ApplyScale(v)) gives v back up to rounding. (False of the code: it computes v/scale - offset; it holds when the offset is zero or the scale is one.)", "quantifier": "all vectors, scales, offsets", "why_tests_cant": "algebraic law", "anchors": ["cpp/include/copc-lib/las/header.hpp:ApplyScale,ApplyInverseScale"]}
{"id": "C21", "title": "Box constructors and predicates", "statement": "Every Box constructor throws exactly when some max is below its min; on boxes with non-NaN ordered bounds Contains(point), Contains(box), Within and Intersects coincide with membership, inclusion and non-empty intersection of closed boxes; Intersects is symmetric, Within is reflexive and transitive and is Contains with arguments swapped.", "quantifier": "all binary64 boxes and points", "why_tests_cant": "2^384 boxes; set-theoretic meaning quantifies over all points", "anchors": ["cpp/src/geometry/box.cpp"]}
{"id": "C22", "title": "Octree boxes nest and tile", "statement": "In exact arithmetic the box of a key is contained in its parent's box, the eight children cover the parent, and neighbours share a face. In binary64 the lower-half children are contained in the parent. (False of the code in binary64 for upper-half children: rounding can push a child's max above the parent's.)", "quantifier": "all keys, all header bounds", "why_tests_cant": "rounding over all doubles", "anchors": ["cpp/src/geometry/box.cpp:Box(key,header)"]}
{"id": "C23", "title": "Key/box relations", "statement": "VoxelKey Intersects/Contains/Within/Crosses(header, box) are the Box relations of the key's box; Crosses holds exactly when the boxes intersect and the key's box is not within the query; Within implies Intersects for ordered non-NaN boxes.", "quantifier": "all keys, headers, boxes", "why_tests_cant": "all float inputs", "anchors": ["cpp/src/hierarchy/key.cpp:Intersects,Contains,Within,Crosses"]}
{"id": "C24", "title": "Extents survive the extents VLRs", "statement": "Writing min/max extents (and, when enabled, mean/variance) to their VLRs and reading them returns the same values for every dimension; without extended statistics mean and variance come back as 0 and 1; a VLR with the wrong number of items is rejected.", "quantifier": "all extents of formats 6-8 with any number of extra-byte items up to the VLR size limit, all doubles", "why_tests_cant": "all doubles, all item counts", "anchors": ["cpp/src/copc/extents.cpp", "cpp/src/las/vlr.cpp:CopcExtentsVlr"]}
{"id": "C25", "title": "Changing format keeps matching extents", "statement": "Rebuilding extents for another point format / extra-byte count keeps the 14 base dimensions, RGB when both formats have it, NIR when both have it, extra bytes when their number is unchanged, and puts defaults everywhere else, each in its own slot.", "quantifier": "all extents and all pairs of formats and counts", "why_tests_cant": "all slots x format pairs", "anchors": ["cpp/src/copc/extents.cpp:CopcExtents(other,...)"]}
{"id": "C26", "title": "Extent invariants", "statement": "An extent built through any constructor has minimum <= maximum and variance >= 0, or the constructor throws. (False of the code for the 4-element list constructor, which does not check the variance; such an extent cannot be copied.)", "quantifier": "all double arguments", "why_tests_cant": "all doubles", "anchors": ["cpp/src/copc/extents.cpp"]}
{"id": "C27", "title": "Record length covers the extra bytes", "statement": "A configuration built from a point format and extra-byte descriptors has record length = base size + sum of the declared field sizes, and EbByteSize() recovers that sum. (False of the code when a descriptor has an undocumented data type above 30 - undefined - and when the sizes total more than 65535: the length wraps.)", "quantifier": "all descriptor lists", "why_tests_cant": "unbounded lists, all 256 data types", "anchors": ["cpp/src/las/vlr.cpp:NumBytesFromExtraBytes", "cpp/src/las/laz_config.cpp"]}
{"id": "C28", "title": "Written chunks are never overwritten", "statement": "For every node added before Close, the bytes of the closed file at [offset, offset+byte_size) returned by AddNode are exactly the compressed data of that node, whatever other nodes were added, replaced or moved before or after.", "quantifier": "all histories of AddNode, AddNodeCompressed and ChangeNodePage followed by Close", "why_tests_cant": "unbounded histories", "anchors": ["cpp/src/io/laz_base_writer.cpp:WriteChunk,WriteChunkTable", "cpp/src/io/copc_writer_public.cpp"]}
{"id": "C29", "title": "Chunks tile the point data section", "statement": "In a closed file the chunks are contiguous from the first chunk offset to the chunk table, in write order, and the chunk table handed to the LAZ encoder lists for each chunk its point count and its byte length.", "quantifier": "all write histories, COPC and LAZ", "why_tests_cant": "unbounded histories", "anchors": ["cpp/src/io/laz_base_writer.cpp:WriteChunk,WriteChunkTable"]}
{"id": "C30", "title": "Header point count equals the points written", "statement": "The point count in the closed file's header is the sum of the point counts of all chunks written (COPC and LAZ); LazWriter::PointCount/ChunkCount report the same at any time.", "quantifier": "all write histories with positive counts below 2^64 in total", "why_tests_cant": "unbounded histories", "anchors": ["cpp/src/io/laz_base_writer.cpp:WriteChunk,WriteLasHeader"]}
{"id": "C31", "title": "Rejected writes leave the writer unchanged", "statement": "AddNode/AddNodeCompressed/ChangeNodePage throw for invalid keys, keys outside the page, empty data, data that is not a whole number of records, zero counts, unknown nodes; after the exception nothing was written and a later Close gives the same file as if the call had not been made. (False of the code for compressed chunks of 2^31 bytes or more, which are written and counted before they are refused.)", "quantifier": "all writer states, all arguments", "why_tests_cant": "all states x all bad arguments", "anchors": ["cpp/src/io/copc_writer_public.cpp"]}
{"id": "C32", "title": "COPC file round trip: nodes", "statement": "After any history of accepted AddNode/AddNodeCompressed calls and Close, opening the file with Reader and asking FindNode(k) returns, for every key k, the latest node added under k (offset, size, count, page) if any and an invalid node otherwise. (False of the code for a key added again under another page: FindNode returns the old node.)", "quantifier": "all histories (keys inside the octree, positive counts), all iteration orders of the internal hash maps and pointer sets, all query keys", "why_tests_cant": "unbounded histories and non-deterministic container order", "anchors": ["cpp/src/io/copc_writer_public.cpp", "cpp/src/io/copc_writer_internal.cpp", "cpp/src/io/copc_reader.cpp", "cpp/src/io/copc_base_io.cpp"]}
{"id": "C33", "title": "COPC file round trip: enumeration", "statement": "On such a file GetAllNodes returns every node exactly once, and GetPageList returns every page key exactly once.", "quantifier": "all histories, all container orders, all previous queries on the reader", "why_tests_cant": "unbounded histories", "anchors": ["cpp/src/io/copc_reader.cpp:GetAllNodes,GetPageList", "cpp/src/io/copc_base_io.cpp"]}
{"id": "C34", "title": "COPC file round trip: data", "statement": "On such a file GetPointDataCompressed(k) returns the compressed bytes stored for k and GetPointData(k)/GetPoints(k) the original uncompressed records/points (given a lossless LAZ codec); keys that were not added give empty results. (False of the code for records above 255 bytes, see C55.)", "quantifier": "all histories, all keys, all data, all lossless codecs", "why_tests_cant": "unbounded data", "anchors": ["cpp/src/io/copc_reader.cpp:GetPointData,GetPointDataCompressed,GetPoints"]}
{"id": "C35", "title": "COPC file round trip: configuration", "statement": "The Reader of a closed file reports the writer's WKT, extra-byte descriptors, COPC info, extents, extended statistics flag and LAS header fields. (False of the code for extra-byte descriptors that describe no bytes at all: the Writer accepts them and the Reader cannot open the file.)", "quantifier": "all configurations and histories", "why_tests_cant": "all configurations", "anchors": ["cpp/src/io/copc_writer_internal.cpp:WriteHeader", "cpp/src/io/copc_reader.cpp:InitCopcReader", "cpp/src/io/base_reader.cpp"]}
{"id": "C36", "title": "VLR and EVLR directories are consistent", "statement": "In a closed file the header's VLR count equals the number of VLRs between byte 375 and the point data, the COPC info VLR is the first at byte 375, the VLR area does not overlap the point data; EVLR count equals pages plus one if a WKT is present, and following the EVLR lengths from the EVLR offset ends exactly at end of file.", "quantifier": "all configurations built by the constructors, all histories, COPC and LAZ", "why_tests_cant": "all configurations and histories", "anchors": ["cpp/src/io/laz_base_writer.cpp", "cpp/src/io/copc_writer_internal.cpp"]}
{"id": "C37", "title": "Close is idempotent", "statement": "A second Close (or the destructor) after a successful Close writes nothing.", "quantifier": "all writer states", "why_tests_cant": "all states", "anchors": ["cpp/src/io/copc_writer_internal.cpp:Close", "cpp/src/io/laz_base_writer.cpp:Close"]}
{"id": "C38", "title": "A closed writer does not alter its file", "statement": "No operation on a Writer after Close changes the closed file. (False of the code: AddNode after Close is accepted and overwrites the chunk-table pointer and the first chunk.)", "quantifier": "all operations after Close", "why_tests_cant": "crash/late-call histories", "anchors": ["cpp/src/io/copc_writer_public.cpp:DoAddNode", "cpp/src/io/laz_base_writer.cpp:WriteChunk"]}
{"id": "C39", "title": "Every accepted history can be closed", "statement": "If all AddNode calls were accepted then Close succeeds. (False of the code: keys with coordinates >= 2^d are accepted as page keys but have no path to the root and make Close throw; it holds when every page key lies in the octree, the header bounds are ordered and fewer than 2^25 calls were made.)", "quantifier": "all histories", "why_tests_cant": "unbounded histories", "anchors": ["cpp/src/io/copc_writer_internal.cpp:ComputePageHierarchy", "cpp/src/io/copc_writer_public.cpp"]}
{"id": "C40", "title": "Node point counts are positive", "statement": "Every node added is later read as a node with a positive count. (False of the code: AddNodeCompressed only rejects 0; a count of -1 turns the node into a page entry in the file.)", "quantifier": "all int32 counts", "why_tests_cant": "all int32 values", "anchors": ["cpp/src/io/copc_writer_public.cpp:AddNodeCompressed"]}
{"id": "C41", "title": "Moving a node between pages", "statement": "After ChangeNodePage(k, p) the closed file stores node k in page p and nowhere else, keeps every other node's page, and drops a non-root page that became empty; moving to the current page is a no-op. (Holds for the first move of a node; false of the code for later moves, because the node keeps its original page key: the node is then stored in two pages, a move back is ignored, or a removed page is dereferenced.)", "quantifier": "all histories", "why_tests_cant": "unbounded histories", "anchors": ["cpp/src/io/copc_writer_public.cpp:ChangeNodePage"]}
{"id": "C42", "title": "Re-adding a key replaces the node", "statement": "Adding a node under an existing key makes readers see the new data under that key, exactly once. (False of the code when the second call names another page: both pages keep an entry for the key.)", "quantifier": "all histories", "why_tests_cant": "unbounded histories", "anchors": ["cpp/src/io/copc_writer_public.cpp:DoAddNode"]}
{"id": "C43", "title": "Output failures are reported", "statement": "If the output stream has failed, AddNode throws. (True only of the call during which it fails; false of the code for a stream that had failed before: the failure value of tellp is compared as unsigned, so later calls are accepted and write nothing. Close does not return normally on a failed stream.)", "quantifier": "all writer states, all failure points", "why_tests_cant": "crash points", "anchors": ["cpp/src/io/laz_base_writer.cpp:WriteChunk"]}
{"id": "C44", "title": "Lookups do not depend on query history", "statement": "On a file whose pages form a well-formed tree (each page attached to the nearest enclosing page), FindNode(k) gives the same answer after any sequence of previous queries: the node's entry if it is stored in the page tree, an invalid node otherwise. (False of the code for files that attach a page to a farther ancestor.)", "quantifier": "all well-formed files, all query histories, all keys", "why_tests_cant": "lazy loading makes every history a different state", "anchors": ["cpp/src/io/copc_base_io.cpp:FindNode,ReadAndParsePage"]}
{"id": "C45", "title": "GetAllChildrenOfPage returns the subtree of the page", "statement": "For the key of an existing page the result is every node stored in that page and its subpages exactly once; for a key without a page it is the node itself if it exists, else nothing; independent of earlier queries. (False of the code when node k is stored in a shallower page while page k is deeper than one level: the first call returns only the node, a later call the whole page.)", "quantifier": "all well-formed files, all query histories", "why_tests_cant": "all histories", "anchors": ["cpp/src/io/copc_reader.cpp:GetAllChildrenOfPage", "cpp/src/io/copc_base_io.cpp:LoadPageHierarchy"]}
{"id": "C46", "title": "Hierarchy loading terminates", "statement": "FindNode and GetAllNodes terminate on every input file. (False of the code: a page entry that refers back to its own page makes both recurse for ever; they terminate on every file whose pages form a finite tree.)", "quantifier": "all byte strings as input files", "why_tests_cant": "termination over all files", "anchors": ["cpp/src/io/copc_base_io.cpp:FindNode,LoadPageHierarchy"]}
{"id": "C47", "title": "Corrupt pages are rejected without side effects", "statement": "If a page contains an entry with an invalid key or negative size, the query that loads it throws and the reader's hierarchy is unchanged, so later queries on other pages still work.", "quantifier": "all files, all reader states", "why_tests_cant": "all corrupt files", "anchors": ["cpp/src/io/copc_reader.cpp:ReadPage", "cpp/src/io/copc_base_io.cpp:ReadAndParsePage"]}
{"id": "C48", "title": "Depth for a resolution is minimal", "statement": "GetDepthAtResolution(r) is, for r > 0, the smallest depth i <= max depth whose spacing halved i times is <= r, or the maximum node depth if there is none; for r <= 0 it is the maximum node depth (-1 for a file without nodes); GetMaxDepth is the maximum depth.", "quantifier": "all files, all double resolutions and spacings", "why_tests_cant": "all doubles, all depth sets", "anchors": ["cpp/src/io/copc_reader.cpp:GetDepthAtResolution,GetMaxDepth"]}
{"id": "C49", "title": "Resolution queries select by depth", "statement": "GetNodesAtResolution(r) returns exactly the nodes whose depth is GetDepthAtResolution(r), GetNodesWithinResolution(r) exactly those with depth at most that; resolution <= 0 returns all nodes for the latter.", "quantifier": "all files, all resolutions", "why_tests_cant": "all files", "anchors": ["cpp/src/io/copc_reader.cpp:GetNodesAtResolution,GetNodesWithinResolution"]}
{"id": "C50", "title": "Box queries on nodes are exact filters", "statement": "GetNodesWithinBox/GetNodesIntersectBox return exactly the nodes within the depth limit whose box is within / intersects the query, each once; the former is a subset of the latter.", "quantifier": "all files, boxes, resolutions", "why_tests_cant": "all float boxes", "anchors": ["cpp/src/io/copc_reader.cpp:GetNodesWithinBox,GetNodesIntersectBox"]}
{"id": "C51", "title": "Point queries by box are exact on validated files", "statement": "If ValidateSpatialBounds() is true, GetPointsWithinBox(box) returns exactly the points of GetAllPoints() that lie in the box (as multisets), for every box with non-NaN bounds. (False of the code for files whose points stray outside their node's box.)", "quantifier": "all validated files, all boxes", "why_tests_cant": "all files and boxes", "anchors": ["cpp/src/io/copc_reader.cpp:GetPointsWithinBox,ValidateSpatialBounds"]}
{"id": "C52", "title": "ValidateSpatialBounds is sound and complete", "statement": "It returns true exactly when every node box intersects the header bounds and every point lies inside both its node's box and the header bounds; the verbose flag does not change the result. (False of the code for files whose entries claim more than 2^31-1 points: the verbose pass counts in an int, and its overflow is undefined.)", "quantifier": "all files", "why_tests_cant": "all files", "anchors": ["cpp/src/io/copc_reader.cpp:ValidateSpatialBounds"]}
{"id": "C53", "title": "WKT is read wherever it is stored", "statement": "The Reader reports the WKT of a file whether it is stored in a VLR or an EVLR. (False of the code for a VLR: the record is read 6 bytes too far; true for EVLRs.)", "quantifier": "all files", "why_tests_cant": "all files", "anchors": ["cpp/src/io/base_reader.cpp:ReadWktVlr"]}
{"id": "C54", "title": "LAZ writer/reader round trip", "statement": "LazReader returns the points written by LazWriter in order, for every sequence of WritePoints/WritePointsCompressed calls and Close, with the WKT, extra-byte descriptors and header of the configuration. (False of the code: the header it reports says COPC for plain LAZ files; records longer than 255 bytes overrun a buffer; descriptors that describe no bytes are not written.)", "quantifier": "all histories and configurations", "why_tests_cant": "unbounded histories", "anchors": ["cpp/src/io/laz_writer.cpp", "cpp/src/io/laz_reader.cpp", "cpp/src/io/laz_base_writer.cpp"]}
{"id": "C55", "title": "Decompression never overruns its buffer", "statement": "GetPointData works for every record length the writer accepts. (False of the code: records longer than 255 bytes overrun a fixed 255-byte buffer, and so do files whose header gives a record length below the format's base size.)", "quantifier": "all record lengths", "why_tests_cant": "memory safety over all configurations", "anchors": ["cpp/include/copc-lib/laz/decompressor.hpp", "cpp/src/io/laz_reader.cpp"]}
{"id": "C56", "title": "Parallel transform is schedule independent", "statement": "For every completion order of the worker tasks and every chunk size, transform_multithreaded produces a file in which every non-empty transformed node is stored once under its key with its transformed data, and the header min/max (when requested) are the bounding box of the transformed points; the rest of the settings are the writer's; a LazWriter gets every node's points, together and in order, the nodes in completion order. (False of the code for a writer header whose GUID is not UTF-8: every call throws; and for a transform function that returns points of another record length: they are stored with a wrong count.)", "quantifier": "all completion orders, chunk sizes, transform functions, node sets", "why_tests_cant": "schedules", "anchors": ["python/copclib/mp/transform.py"]}
{"id": "C57", "title": "Parallel read visits every node once", "statement": "read_multithreaded calls the callback exactly once for every selected node with that node's result, for every completion order and positive chunk size, one chunk of nodes after another; every completion order is possible; an exception in a task or a callback stops it and reaches the caller; the chunk helper partitions the list in order with no chunk above the limit. So read_concatenate_xyz_class_limit returns the coordinates of exactly the points with an allowed classification, and read_map_xyz_class_limit one entry per node that has any. (False of the code for a negative chunk size: no node is visited and nothing is raised.)", "quantifier": "all schedules", "why_tests_cant": "schedules", "anchors": ["python/copclib/mp/read.py", "python/copclib/mp/utils.py"]}
{"id": "C58", "title": "Pickling preserves headers, keys and nodes", "statement": "Unpickling a pickled LasHeader, VoxelKey, Node, Vector3 or byte vector gives an object with identical observable fields. (False of the code for headers whose identification strings are not valid UTF-8, e.g. a binary GUID: pickling throws.)", "quantifier": "all values accepted by the setters", "why_tests_cant": "all field values", "anchors": ["python/bindings.cpp"]}
{"id": "C59", "title": "Configurations are isolated copies", "statement": "Changing a CopcConfigWriter, or the config it was copied from, after a Writer was constructed does not change the file that Writer produces, and writers built from one config do not influence each other; the writer's own CopcConfig() handle does. (False of the code for LazWriter: it shares the header object with the LazConfigWriter it was given.)", "quantifier": "all mutation histories", "why_tests_cant": "aliasing", "anchors": ["cpp/include/copc-lib/copc/copc_config.hpp", "cpp/include/copc-lib/las/laz_config.hpp", "cpp/src/io/laz_writer.cpp"]}
{"id": "C60", "title": "Writer constructor overrides", "statement": "Constructing a Writer with optional overrides (format, scale, offset, WKT, extra bytes, extended stats) yields a configuration with exactly those fields changed, the record length recomputed, extents re-slotted, everything else copied; without overrides it is an exact copy.", "quantifier": "all configurations, all override combinations", "why_tests_cant": "2^6 combinations x all configurations", "anchors": ["cpp/src/io/copc_writer_public.cpp:InitWriter"]}
{"id": "C61", "title": "A failed read does not poison the reader", "statement": "After a query that hits end of file, later queries for intact data still succeed. (False of the code for GetPointDataCompressed and GetPointData on a truncated chunk: the stream stays failed and later page loads throw; true after any queries for data the file has.)", "quantifier": "all truncated files, all query histories", "why_tests_cant": "crash/truncation points", "anchors": ["cpp/src/io/copc_reader.cpp:GetPointDataCompressed,ReadPage"]}
{"id": "C62", "title": "Header-level RemoveScale agrees with Pack", "statement": "LasHeader::RemoveScaleX/Y/Z returns the integer Pack would store for that coordinate whenever Pack accepts it. (For every coordinate Pack rejects, the header functions do not throw: the conversion is undefined.)", "quantifier": "all binary64 values, scales, offsets", "why_tests_cant": "all doubles", "anchors": ["cpp/include/copc-lib/las/header.hpp:RemoveScaleX", "cpp/include/copc-lib/las/utils.hpp:RemoveScale"]}
{"id": "C63", "title": "Root voxel covers the header bounds", "statement": "The box of the root key has the header's min corner, and it contains the whole header box whenever the computed span is not below the exact extents. (False of the code otherwise: rounding of max - min can leave the header's max corner outside the root voxel, so a point at the header's max lies in no voxel.)", "quantifier": "all header bounds", "why_tests_cant": "all doubles", "anchors": ["cpp/src/geometry/box.cpp:Box(key,header)", "cpp/include/copc-lib/las/header.hpp:Span"]}
{"id": "C64", "title": "Rebuilt extents are independent of their source", "statement": "Extents rebuilt from other extents (copy, or for another format / extra-byte count) are independent objects: changing an extent of one does not change the other. (False of the code for the format-changing constructor, which shares the extent objects it carries over; true for copies and for the configurations writers build.)", "quantifier": "all extents, all formats and counts, all mutation histories", "why_tests_cant": "aliasing", "anchors": ["cpp/src/copc/extents.cpp:CopcExtents(extents,format,num_eb,extended)"]}
{"id": "C65", "title": "A copied point is the same point", "statement": "Copying a Point gives a point with the same format, record length, coordinates, every attribute and extra bytes, which packs to the same bytes and compares equal to the original.", "quantifier": "all points", "why_tests_cant": "all attribute values and extra bytes", "anchors": ["cpp/src/las/point.cpp:Point(const Point&)"]}
{"id": "C66", "title": "The text of a voxel key identifies it", "statement": "Two keys with the same text (VoxelKey::ToString, and Python str) are the same key, so results keyed by it never collide.", "quantifier": "all pairs of keys", "why_tests_cant": "all pairs of int32 quadruples", "anchors": ["cpp/src/hierarchy/key.cpp:ToString", "python/copclib/mp/read.py"]}
{"id": "C67", "title": "Filtering points by a box", "statement": "Points::GetWithin(box) returns exactly the points of the container that lie in the box, in their order; Points::Within(box) is true exactly when every point lies in the box.", "quantifier": "all containers, all boxes without NaN", "why_tests_cant": "all point sets and boxes", "anchors": ["cpp/src/las/points.cpp:GetWithin,Within"]}
{"id": "C68", "title": "FindNode on a writer", "statement": "Writer::FindNode(key) returns the node the last accepted AddNode / AddNodeCompressed call for that key returned, an invalid node if there was none, and the node returned by an add carries the key and page of the call. (False of the code: after ChangeNodePage the page the node reports is still the old one, though the file stores the node in the new page.)", "quantifier": "all call histories, all keys", "why_tests_cant": "all histories", "anchors": ["cpp/include/copc-lib/io/copc_base_io.hpp:FindNode", "cpp/src/io/copc_writer_public.cpp:ChangeNodePage"]}
{"id": "C69", "title": "Points as a Python sequence", "statement": "Indexing, slicing, item and slice assignment, iteration and membership of Points behave as for a Python list of the same points: negative indices count from the end, out-of-range indices raise, a slice takes the elements range(start, stop, step) names, slice assignment of another length raises. (False of the code: an empty slice raises; assignment does not check the format, so a container can hold points of other formats, or None, which crashes later; assigning a container to an extended slice of itself aliases; `in` compares identity, not equality.)", "quantifier": "all containers, all indices and slices", "why_tests_cant": "all slices", "anchors": ["python/bindings.cpp:Points"]}
{"id": "C70", "title": "Equality and list constructors", "statement": "Two VoxelKeys / Vector3s / extents are equal exactly when all their components are; nodes when key, offset, size and count are; equal keys hash equally; constructors from lists accept exactly lists of the right length and take the components in order; MaxBox contains every finite point. (False of the code for extra-byte field descriptors: equality compares 3 bytes of each 24-byte array.)", "quantifier": "all values", "why_tests_cant": "all pairs of values", "anchors": ["cpp/include/copc-lib/hierarchy/key.hpp", "cpp/include/copc-lib/geometry/vector3.hpp", "cpp/include/copc-lib/copc/extents.hpp", "cpp/include/copc-lib/las/vlr.hpp"]}
{"id": "C71", "title": "Compressing and decompressing in memory", "statement": "CompressBytes of a byte vector throws exactly when the bytes are not whole records or exceed 2^31-1 bytes; otherwise DecompressBytes of the result with the record count returns the bytes. (False of the code for records longer than 255 bytes: they compress, decompressing them overruns a 255-byte buffer.)", "quantifier": "all record sequences of formats 6 to 8, all extra-byte counts", "why_tests_cant": "all byte vectors", "anchors": ["cpp/include/copc-lib/laz/compressor.hpp", "cpp/include/copc-lib/laz/decompressor.hpp"]}
{"id": "C72", "title": "Compressing outside the writer makes no difference", "statement": "AddNodeCompressed given what CompressBytes made of some records has the same result and leaves the writer in the same state as AddNode with those records, at any point of any session; likewise WritePoints and WritePointsCompressed of a LazWriter.", "quantifier": "all histories, all records", "why_tests_cant": "all histories", "anchors": ["cpp/src/io/copc_writer_public.cpp:AddNode,AddNodeCompressed", "cpp/src/io/laz_writer.cpp"]}
{"id": "C73", "title": "Resolution of a level", "statement": "The resolution at a key is spacing / 2^depth, exactly; a child has half the resolution of its parent; GetDepthAtResolution returns the smallest depth whose resolution is at most the one asked for (the deepest stored depth if none is). (False of the code when the spacing is 0, the default: every resolution is 0.)", "quantifier": "all spacings, depths and files", "why_tests_cant": "all doubles and depths", "anchors": ["cpp/src/hierarchy/key.cpp:Resolution", "cpp/src/io/copc_reader.cpp:GetDepthAtResolution"]}
{"id": "C74", "title": "Accessors of extents and configurations", "statement": "Each CopcExtents accessor reads and writes exactly its dimension's slot of the record, throws exactly when the point format lacks the dimension, and leaves the other dimensions alone; ExtraBytes accepts exactly one extent per extra-byte item; SetGpsTimeBit sets bit 0 of the global encoding and nothing else; a LazConfigWriter made from another configuration differs from it only in the COPC flag.", "quantifier": "all extents, formats, dimensions, headers and configurations", "why_tests_cant": "all values", "anchors": ["cpp/include/copc-lib/copc/extents.hpp", "cpp/src/las/header.cpp:SetGpsTimeBit", "cpp/include/copc-lib/las/laz_config.hpp"]}
{"id": "C75", "title": "A file that was not closed is not taken for a complete one", "statement": "If the program stops at any moment - before, in the middle of or after any write - before Close begins to write the header, no reader opens the file it leaves: each constructor throws. If it stops while Close writes the header, the file is the complete one except that an unwritten tail of the header area is zero, at least 105 bytes of the header are there or no reader opens it, and the COPC reader throws until at least 394 bytes are there. If Close throws for another reason than inverted bounds, nothing has reached the header area and no reader opens the file.", "quantifier": "all configurations, call histories, codecs and all cut points of the sequence of writes (bytes reach the file in the order they are written)", "why_tests_cant": "all crash points of all histories", "anchors": ["cpp/src/io/copc_writer_internal.cpp:Close,WriteHeader", "cpp/src/io/laz_base_writer.cpp:Close,WriteHeader", "cpp/src/io/base_reader.cpp"]}
{"id": "C76", "title": "Chunks are on the stream when the call returns", "statement": "Once an AddNode / AddNodeCompressed call has returned a node, the bytes of its chunk are at the offset and of the size the node reports in the file the program leaves, whatever it does afterwards and wherever it is stopped: later calls and Close never write over them. Likewise for a LazWriter.", "quantifier": "all call histories before and after, all cut points", "why_tests_cant": "all crash points of all histories", "anchors": ["cpp/src/io/laz_base_writer.cpp:WriteNode,Close", "cpp/src/io/copc_writer_internal.cpp:Close,WriteHeader"]}
{"id": "C77", "title": "A Close that throws", "statement": "A program can catch the exception of a Close that throws, remove its cause, and Close again or destroy the Writer; the chunks written so far stay intact. (False of the code: the destructor calls Close again, which throws again - out of a noexcept destructor - for every way in which Close can throw; and a second Close after the cause was removed counts the EVLRs twice and makes the chunk table relative twice, so that the file cannot be read; a node added after the failed Close is accepted and written over the header records and the points of earlier nodes.)", "quantifier": "all call histories after which Close throws", "why_tests_cant": "all histories", "anchors": ["cpp/include/copc-lib/io/copc_writer.hpp:~Writer", "cpp/src/io/copc_writer_internal.cpp:Close", "cpp/src/io/laz_base_writer.cpp:WriteChunkTable"]}
{"id": "C78", "title": "What a FileWriter leaves on disk", "statement": "A FileWriter's stream buffers. Once Close has returned, the disk has exactly the bytes the writer sent. A program killed at any moment leaves what an unbuffered one could have left, so that no reader takes the file for a complete one; all chunks are on disk once Close has begun. Close reports it when the disk does not take the bytes, and a node returned by AddNode is on disk. (The last two are false of the code: Close ignores the failure of the stream's close(); a returned node's chunk may still be in the buffer.)", "quantifier": "all configurations, call histories, moments at which the buffer is written out, and moments at which the program is killed", "why_tests_cant": "all crash points and buffering schedules", "anchors": ["cpp/src/io/copc_writer_public.cpp:FileWriter", "cpp/src/io/laz_base_writer.cpp:BaseFileWriter", "cpp/include/copc-lib/io/laz_writer.hpp:LazFileWriter"]}
{"id": "C79", "title": "A file writer after Close", "statement": "After Close of a FileWriter or LazFileWriter has returned, no call changes the file, Close does nothing more, and calls that would add points are refused. (The last is false of the code: AddNode returns a node with offset and size although nothing is written; WritePointsCompressed returns and counts the points.)", "quantifier": "all histories before and after Close", "why_tests_cant": "all histories", "anchors": ["cpp/src/io/copc_writer_public.cpp:FileWriter::Close", "cpp/include/copc-lib/io/laz_writer.hpp:LazFileWriter::Close"]}
{"id": "C80", "title": "A FileReader after Close", "statement": "Close may be called at any moment and any number of times; a query afterwards answers what it would have answered before, or is refused. After GetAllNodes every query about nodes and pages still works. (The refusal is false of the code: the stream is deleted but used, so point data and pages not read before are undefined behaviour.)", "quantifier": "all files, all sequences of queries and Close", "why_tests_cant": "all histories", "anchors": ["cpp/include/copc-lib/io/copc_reader.hpp:FileReader"]}
{"id": "C81", "title": "Several Readers on one stream", "statement": "Readers that were opened on the same stream and are used in any interleaving answer what each would answer on a stream of its own, as long as the queries need only data that the file has. (Not beyond that: a truncated chunk that one Reader meets leaves the stream failed, and the other can no longer read pages.)", "quantifier": "all well-formed files, any number of Readers, all interleavings of queries", "why_tests_cant": "all interleavings", "anchors": ["cpp/include/copc-lib/io/copc_reader.hpp:Reader", "cpp/src/io/base_reader.cpp"]}
{"id": "C82", "title": "Queries on untrusted files", "statement": "Whatever the bytes of a file, once it opens no query has undefined behaviour - it returns or throws - after whatever queries before. (False of the code for: a hierarchy page cut by the end of the file, a record length outside base size..255, a node of depth 2^31-1 with an infinite spacing, and the verbose ValidateSpatialBounds of C52. For every other file it holds.)", "quantifier": "all byte sequences, all histories of queries (exceptions caught), all iteration orders of the hash maps, every decompressor that returns the records it was asked for or throws", "why_tests_cant": "all byte sequences and histories", "anchors": ["cpp/src/io/base_reader.cpp", "cpp/src/io/copc_reader.cpp", "cpp/src/hierarchy/internal/hierarchy.hpp", "cpp/include/copc-lib/laz/decompressor.hpp"]}
{"id": "C83", "title": "Opening untrusted files", "statement": "Opening a file gives a reader or an exception, never undefined behaviour, whatever its bytes. (False of the code for a header whose GUID, system identifier or generating software fills its field without a NUL: it is read as a C string. It holds for every file whose texts are terminated and whose records lie inside it; files whose records do not fit are outside the model.)", "quantifier": "all byte sequences", "why_tests_cant": "all byte sequences", "anchors": ["cpp/src/io/base_reader.cpp", "cpp/src/io/copc_reader.cpp", "cpp/src/las/header.cpp:FromLazPerf"]}
{"id": "C84", "title": "Copying nodes from file to file", "statement": "A program that adds chosen nodes of a COPC file to a Writer - GetPointDataCompressed, then AddNodeCompressed with the node's key and point count, into any enclosing page - makes a file in which exactly these nodes are found, in the chosen pages, with their counts and the same chunks; if the Writer has the point format and record length of the source, GetPointData gives the same records, and with the same scale and offset GetPoints gives the same points; a Writer made from the source's configuration gives the copy that configuration. The loop and Close throw nothing. Decompressing and compressing again also keeps the records. (A Writer of another point format accepts the chunks all the same, and the copy then reads as other records.)", "quantifier": "all COPC files in use by a Reader in any state, all selections of nodes, all choices of enclosing pages, all Writer configurations and overrides, all iteration orders", "why_tests_cant": "all files and selections", "anchors": ["example/example-writer.cpp:TrimFileExample", "cpp/src/io/copc_reader.cpp:GetPointDataCompressed", "cpp/src/io/copc_writer_public.cpp:AddNodeCompressed"]}
{"id": "C85", "title": "Constructing a writer", "statement": "Constructing a Writer gives a Writer or throws, and the program goes on; a FileWriter that is not constructed leaves the file that was at its path. A Writer is constructed exactly when its configuration can be copied or changed and has one of the formats 6 to 8; configurations that readers report or that were made from a format never do worse than throw. (False of the code: without optional arguments a configuration with another format ends the program through std::terminate, because the destructor of the half-made writer throws again, and so for every LazWriter; the path is emptied before anything is checked.)", "quantifier": "all configurations, including those put together from a header, info and extents by hand; all optional arguments; all files the configuration may have been read from", "why_tests_cant": "all configurations", "anchors": ["cpp/src/io/copc_writer_public.cpp:InitWriter", "cpp/src/io/copc_writer_internal.cpp:WriterInternal", "cpp/src/io/laz_writer.cpp:LazWriter", "cpp/include/copc-lib/io/laz_base_writer.hpp:~BaseWriter", "cpp/src/io/laz_base_writer.cpp:BaseFileWriter"]}
{"id": "C86", "title": "The order of AddNode calls", "statement": "A program that adds every node at most once may do so in any order, and in any order relative to changes of the configuration: the same calls are accepted, and a Reader of either file finds the same nodes - key, page, point count and size - and pages, the same compressed bytes, records and points for every key, and the same configuration and point count. (Only the offsets differ. A key added twice is another matter: the later call wins.)", "quantifier": "all configurations, all lists of calls that add every key at most once (calls that are rejected included) and all rearrangements of them, all queries", "why_tests_cant": "all permutations of all call lists", "anchors": ["cpp/src/io/copc_writer_public.cpp:DoAddNode", "cpp/src/io/copc_writer_public.cpp:AddNode", "cpp/src/io/laz_base_writer.cpp:WriteChunk", "cpp/src/io/copc_writer_internal.cpp:WriteHierarchy"]}
{"id": "C87", "title": "Trimming a file to a box", "statement": "The loop that trims a file - for every node of a list: a node whose cell lies in the box is copied compressed, a node whose cell meets it is read, reduced to the points in the box and added again, others are skipped - makes a file that holds exactly the kept nodes under their keys and pages; GetPoints of every node of the list gives the points of the source that lie in the box, in order and unchanged; GetAllPoints gives all points of the list that lie in the box, which, for a list of all nodes, are the points that GetPointsWithinBox finds in the source. (False of the code: that the loop never throws. A node that crosses the box without a point in it ends it with an exception, because Points cannot be made from an empty list.)", "quantifier": "all COPC files whose points lie in the cells of their nodes, in use by a Reader in any state, all lists of distinct nodes, all boxes, all Writer configurations of the source's format, scale and offset, all iteration orders", "why_tests_cant": "all files and boxes", "anchors": ["example/example-writer.cpp:BoundsTrimFileExample", "cpp/src/hierarchy/key.cpp:Within", "cpp/src/hierarchy/key.cpp:Intersects", "cpp/src/las/points.cpp:GetWithin", "cpp/src/las/points.cpp:Points", "cpp/src/io/copc_writer_public.cpp:AddNode"]}
{"id": "C88", "title": "Copies of a Writer write one file", "statement": "Writer objects can be copied and assigned; a copy writes the same file. Whatever a program does with any number of Writers and copies, every file is the work of one Writer that makes, in order and with the same results, the calls that went to this file through any object, so that when these calls all come before the first Close, destruction or loss of one of its objects, a Reader finds every node added through any of them. Calls on other Writers never affect a file. A file that no object means any more has been closed and does not change again. (Desired: a Writer stays usable when a copy of it is destroyed, for example after passing it by value or when a std::vector<Writer> grows; refuted: the copy's destructor closes the file and nodes added later are accepted and lost. Copies of a LazWriter that is open spoil its file: each writes its own header.)", "quantifier": "all programs that construct, copy, assign, call, close and destroy Writer objects, in any order and number", "why_tests_cant": "all programs over any number of objects", "anchors": ["cpp/include/copc-lib/io/copc_writer.hpp:Writer", "cpp/include/copc-lib/io/internal/copc_writer_internal.hpp:~WriterInternal", "cpp/include/copc-lib/io/laz_base_writer.hpp:BaseWriter"]}
{"id": "C89", "title": "Writing to a stream that already has contents", "statement": "A Writer or LazWriter constructed on a stream that already holds bytes and stands at its beginning returns from every call exactly what it would on an empty stream, and stores every chunk where the node returned by AddNode says, whatever the old contents. When the old contents are no longer than what the calls wrote, the closed file is byte for byte that of an empty stream. (Desired: the file never depends on the old contents; refuted: what is left of longer old contents stays in the file before the chunk table. A second file written to the same stream without rewinding it does not have its first chunk where its header says the point data starts, and a LazReader reads other records than were written.)", "quantifier": "all old contents, configurations, codecs and sequences of calls", "why_tests_cant": "all old contents and all sequences of calls", "anchors": ["cpp/src/io/copc_writer_internal.cpp:WriterInternal::WriterInternal", "cpp/src/io/laz_writer.cpp:LazWriter::LazWriter", "cpp/src/io/laz_base_writer.cpp:WriteChunkTable"]}
{"id": "C90", "title": "The header's point count", "statement": "For the file of a Writer, the nodes that GetAllNodes lists hold together at most as many points as the header's point count says, GetAllPoints at full resolution returns that many points, and the count is exact if and only if no key was added twice (in particular for every program that adds each node once, whether or not it moves nodes to other pages). (Desired: the count is always exact; refuted: when a key is added again, the header counts the points of both chunks, and a Reader returns those of the later one.)", "quantifier": "all configurations, all sequences of calls (rejected ones included) whose node placement is settled, all Readers of the file in any state, all iteration orders", "why_tests_cant": "all call sequences", "anchors": ["cpp/src/io/laz_base_writer.cpp:WriteChunk", "cpp/src/io/copc_writer_public.cpp:DoAddNode", "cpp/src/io/copc_reader.cpp:GetAllNodes", "cpp/src/io/copc_reader.cpp:GetAllPoints"]}
{"id": "C91", "title": "Trimming a file to a resolution", "statement": "A program that asks GetDepthAtResolution for a resolution and copies the nodes of GetAllNodes up to that depth into a new file makes a file that holds exactly these nodes, none deeper; GetAllPoints of it gives, up to order, the points that GetAllPoints with that resolution gives for the source; its GetDepthAtResolution(0) is at most the depth of the resolution, and equal to it if the source skips no depth; with the source's configuration, the resolution then means the same depth in both files. (Desired: the new file always reaches the depth of the resolution; refuted: GetDepthAtResolution can give a depth at which the file has no nodes, so that the new file may even be empty.)", "quantifier": "all COPC files whose nodes hold points and whose chunks decompress, in use by a Reader in any state, all resolutions, all Writers of the source's format, scale and offset, all iteration orders", "why_tests_cant": "all files and resolutions", "anchors": ["example/example-writer.cpp:ResolutionTrimFileExample", "cpp/src/io/copc_reader.cpp:GetDepthAtResolution", "cpp/src/io/copc_reader.cpp:GetAllPoints", "cpp/src/io/copc_reader.cpp:GetAllNodes"]}
{"id": "C92", "title": "Assigning a whole header to a Writer", "statement": "A program may assign a whole header to the header of a Writer's configuration, for example one read from another file, at any moment before Close. If it has the Writer's point format, record length, scale, offset and COPC flag, every call and Close return what they return when its members are set one by one, and the file is byte for byte the same, whatever point count, offsets and record counts the assigned header carries. (Desired: an assignment never changes points written before; refuted: a header with another scale is accepted and the points are then read elsewhere; one of format 8 instead of 7 makes Close write the chunk table's position into the points and the file does not open; one without the COPC flag makes Close throw.)", "quantifier": "all configurations, all sequences of calls and assignments, all codecs and iteration orders, streams that may fail", "why_tests_cant": "all programs", "anchors": ["cpp/include/copc-lib/io/copc_writer.hpp:CopcConfig", "cpp/include/copc-lib/copc/copc_config.hpp:CopcConfigWriter::LasHeader", "cpp/include/copc-lib/las/header.hpp:LasHeader", "cpp/src/io/copc_writer_internal.cpp:Close", "cpp/src/las/header.cpp:ToLazPerf"]}
{"id": "C93", "title": "Converting a COPC file to LAZ", "statement": "A program that goes through nodes of a COPC file and passes GetPointDataCompressed and the point count of each to WritePointsCompressed of a LazWriter of the same point format and record length makes a LAZ file whose records, read from front to back, are those of the nodes, in the order of the loop, with the count of points in the header; with the same scale and offset the points are the same. A LazWriter made from the Reader's configuration has the same format, record length, scale, offset, WKT and extra bytes. Neither the loop nor Close throws. Passing GetPoints of each node to WritePoints gives the same points, rounded to the scale and offset of the LAZ file. (Desired: the loop works for every list of nodes; refuted: a node without points ends it with an exception, since a LazWriter accepts no empty chunk.)", "quantifier": "all COPC files in use by a Reader in any state, all lists of nodes whose chunks decompress, all LazWriter configurations of the source's format, all lossless codecs", "why_tests_cant": "all files and lists of nodes", "anchors": ["cpp/src/io/copc_reader.cpp:GetPointDataCompressed", "cpp/src/io/copc_reader.cpp:GetPoints", "cpp/src/io/laz_writer.cpp:WritePointsCompressed", "cpp/src/io/laz_writer.cpp:WritePoints", "cpp/include/copc-lib/las/laz_config.hpp:LazConfigWriter"]}
{"id": "C94", "title": "transform_multithreaded with a callback", "statement": "completed_callback is called once for every selected node, also for nodes without points left, with the node, its number of points, their compressed bytes and the dictionary that transform_function returned for it; the calls come one after the other, each before its node is written. It does not change the output: a run with a callback that ends normally writes what a run without it can write, and with a callback that raises nothing exactly the same files and exceptions are possible as without it. If a call raises, its node is not written, no later call is made, and transform_multithreaded raises. A keyword argument named points, node, writer_header or reader raises before anything is written. (Desired: the dictionary may have any entries; refuted: an entry named node, point_count or compressed_points makes every run with a callback raise.)", "quantifier": "all files, node lists, transform functions, dictionaries, callbacks and states they act on, chunk sizes, numbers of workers, schedules and completion orders; Writers and LazWriters", "why_tests_cant": "all schedules, functions and files", "anchors": ["python/copclib/mp/transform.py:transform_multithreaded", "python/copclib/mp/transform.py:_transform_node"]}
{"id": "C95", "title": "Written files validate", "statement": "For the file of a Writer, ValidateSpatialBounds returns true if and only if for every key the points of the AddNode call that counts, as they come back from the file, lie in the key's voxel and within the header's bounds at the time of Close; in particular it returns true for every program that adds points which are multiples of the scale from the offset, such as points read from a file of that scale, in their voxels and within the bounds. For a file that validates, GetPointsWithinBox at full resolution returns exactly the added points that lie in the box. (Desired: a file whose points lay in their voxels and within the bounds when they were added validates; refuted: coordinates are rounded to the scale when they are written, and a point on the boundary may come back beyond it.)", "quantifier": "all configurations and bounds, all sequences of calls (rejected ones included) whose node placement is settled, all boxes, all Readers of the file in any state, all iteration orders", "why_tests_cant": "all call sequences and boxes", "anchors": ["cpp/src/io/copc_reader.cpp:ValidateSpatialBounds", "cpp/src/io/copc_reader.cpp:GetPointsWithinBox", "cpp/src/io/copc_writer_public.cpp:AddNode", "cpp/src/las/point.cpp:Pack", "cpp/src/geometry/box.cpp:Box"]}
{"id": "C96", "title": "Extent objects given to a Writer", "statement": "A program may give CopcExtent objects to the extents of a Writer's configuration (extents.x = e, extents.extra_bytes = [...], or whole extents of the same shape), change them later, and mix this with all other calls. The Writer then holds, at every moment, the current value of the object that was last given for a dimension, and the file is byte for byte the one of a program that makes the same other calls and sets every extent to these final values member by member; the other calls return the same. An object keeps its value until the program changes it, itself or through a dimension it was given for. (Desired: a setter stores the value it is given; refuted: the object is shared, so changing it later changes the Writer's extent, and an object given for two dimensions makes changing the one change the other.)", "quantifier": "all configurations, all sequences of calls, object creations, changes and assignments, all codecs and iteration orders, streams that may fail", "why_tests_cant": "all programs and histories", "anchors": ["cpp/include/copc-lib/copc/extents.hpp:CopcExtents::X", "cpp/include/copc-lib/copc/extents.hpp:CopcExtents::ExtraBytes", "python/bindings.cpp:CopcExtent", "python/bindings.cpp:CopcExtents", "cpp/include/copc-lib/io/copc_writer.hpp:CopcConfig"]}
{"id": "C97", "title": "Assigning whole extents to a Writer", "statement": "A program may assign a whole CopcExtents object to the extents of a Writer's configuration, for example the one of another file, at any moment before Close. If it has the Writer's point format, flag for extended statistics and number of entries, the Writer, all results and the file are those of setting every extent to the value of its object; afterwards the Writer and the assigned extents share their objects: for every dimension the Writer has the current value of the object in that place, until another is given for it. (Desired: whole extents can be assigned at any time; refuted: extents with extended statistics given to a Writer without them make Close overwrite points that had been written, and the file does not open; extents of a format with fewer dimensions make a file that does not open; with more, Close throws and points that had been written are lost.)", "quantifier": "all configurations, all sequences of calls, object creations, changes and assignments, all codecs and iteration orders, streams that may fail", "why_tests_cant": "all programs", "anchors": ["cpp/include/copc-lib/io/copc_writer.hpp:CopcConfig", "cpp/include/copc-lib/copc/copc_config.hpp:CopcConfigWriter::CopcExtents", "cpp/include/copc-lib/copc/extents.hpp:CopcExtents", "cpp/src/io/copc_writer_internal.cpp:WriteHeader", "cpp/src/io/copc_writer_internal.cpp:OffsetToPointData"]}
{"id": "C98", "title": "A copy of a file that validates also validates, and box queries on it give the same points", "statement": "Nodes are copied as chunks, with AddNodeCompressed, from a Reader into a new file with the configuration of the source. If ValidateSpatialBounds accepts the source, it accepts the copy, whichever nodes were copied; if every node was copied, it gives the same answer for the copy as for the source. GetPointsWithinBox at full resolution on the copy of a file that validates gives exactly the points of the copied nodes that lie in the box; with every node copied, the points that the same query gives on the source, in some order.", "quantifier": "all files, all selections of nodes, all codecs for which the chunks hold records, all boxes, all iteration orders", "why_tests_cant": "all files and boxes", "anchors": ["cpp/src/io/copc_writer_public.cpp:AddNodeCompressed", "cpp/src/io/copc_reader.cpp:ValidateSpatialBounds", "cpp/src/io/copc_reader.cpp:GetPointsWithinBox", "cpp/src/io/copc_reader.cpp:GetPointDataCompressed"]}
{"id": "C99", "title": "Copies of copies keep the points and the configuration, however many there are", "statement": "The configuration that a Reader of a written file has can always be given to a Writer. A file whose nodes all have points and intact chunks may be copied chunk by chunk (AddNodeCompressed, every node, any page keys) with its Reader's configuration, the copy copied in the same way, and so on: after any number of copies the file again can be copied, it has the same nodes, GetPoints gives the same points for every key, ValidateSpatialBounds gives the same answer, and WKT, extra bytes, extents, cube, spacing, bounds, scale, offset, format and identification are those of the first file. (The WKT bit of the global encoding is set in every copy, and the statistics of the extents are kept only with the extended statistics flag.) Every file written by the library with a lossless codec is such a file.", "quantifier": "all files, all numbers of copies, all codecs, all choices of page keys and all iteration orders, all Readers in whatever state between the copies", "why_tests_cant": "all histories of copies", "anchors": ["cpp/src/io/copc_writer_public.cpp:AddNodeCompressed", "cpp/src/io/copc_reader.cpp:GetPointDataCompressed", "cpp/include/copc-lib/io/copc_writer.hpp:FileWriter", "cpp/include/copc-lib/copc/copc_config.hpp:CopcConfigWriter"]}
{"id": "C100", "title": "Copies made by decompressing and compressing again", "statement": "A program that takes a list of nodes of a COPC file, reads the records of each with GetPointData, compresses them (Compressor::CompressBytes with the Writer's header) and adds them with AddNodeCompressed to a Writer constructed from the Reader's configuration makes a file with exactly the keys of the nodes, each in the page given for it, with the points that the source has, and with the configuration of the source, whatever encoder made the source's chunks and whatever bytes follow the records in them. With every node, GetPoints gives the same points for every key and ValidateSpatialBounds the same answer, for the new file and for any number of chunk-by-chunk copies of it. The loop and Close throw nothing if the records of each node and their compressed form have fewer than 2^31 bytes.", "quantifier": "all files whose chunks decompress to points, all lists of nodes and page keys, all lossless codecs, all numbers of later copies, all iteration orders, Readers in any state", "why_tests_cant": "all files and histories of copies", "anchors": ["example/example-writer.cpp:TrimFileExample", "cpp/src/io/copc_reader.cpp:GetPointData", "cpp/include/copc-lib/laz/compressor.hpp:Compressor::CompressBytes", "cpp/src/io/copc_writer_public.cpp:AddNodeCompressed"]}
