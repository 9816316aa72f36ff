{"id": "C01", "title": "Varint round-trip with exact consumption", "statement": "Encoding an unsigned 64-bit value as a varint and decoding at the position where it was written returns exactly that value and moves the cursor to the first byte after it, whatever bytes precede or follow.", "quantifier": "every uint64 value, every prefix and every suffix of the buffer", "why_tests_cant": "2^64 values times arbitrary surrounding bytes; the ten-way switch has ten boundaries each test would have to hit on both sides.", "anchors": ["internal/pb/varint.go:EncodeVarInt", "internal/pb/varint.go:DecodeVarInt"]}
{"id": "C02", "title": "Varint encoding is canonical protobuf LEB128", "statement": "The bytes written for a value are the base-128 little-endian digits with continuation bits on all but the last byte, 1 to 10 bytes long, and as short as possible, so any protobuf reader understands them.", "quantifier": "every uint64 value", "why_tests_cant": "Conformance is a statement about all 2^64 values, not about agreement with the project's own decoder.", "anchors": ["internal/pb/varint.go:EncodeVarInt"]}
{"id": "C03", "title": "Varint decoding is sound on arbitrary bytes", "statement": "On any byte sequence and any cursor the varint decoder either returns the base-128 value of the bytes it consumed (at least 1 and at most 10, all inside the buffer, value below 2^64) or panics; it panics exactly when the cursor is outside the buffer, the sequence is truncated, or the tenth byte is greater than one.", "quantifier": "every byte sequence, every cursor", "why_tests_cant": "Inputs are unbounded adversarial byte strings.", "anchors": ["internal/pb/varint.go:DecodeVarInt"]}
{"id": "C04", "title": "ZigZag is the standard bijection", "statement": "Zigzag encoding maps n to 2n for n>=0 and to -2n-1 for n<0, and decode(encode n)=n and encode(decode u)=u.", "quantifier": "every int64 and every uint64", "why_tests_cant": "Range is 2^64 values including the extremes where shifts overflow.", "anchors": ["internal/pb/varint.go:EncodeZigZag", "internal/pb/varint.go:DecodeZigZag"]}
{"id": "C05", "title": "Typed scalar round-trips", "statement": "A scalar written with the wire form of its type (zigzag, sign-extended or unsigned varint) is read back unchanged by the matching 32/64-bit decoder, and 32-bit decoders return the low 32 bits of whatever was written.", "quantifier": "every value of each of the six scalar types", "why_tests_cant": "Full 32/64-bit ranges; truncation and sign extension only show at the extremes.", "anchors": ["internal/pb/32.go", "internal/pb/64.go"]}
{"id": "C06", "title": "Packed list round-trips", "statement": "Encoding a list of integers as a packed (optionally delta) length-prefixed field and decoding it gives the same list, consumes exactly the field, and never indexes outside the preallocated output, even when deltas overflow 64 bits.", "quantifier": "every list of int64 / int32 / uint32 / uint64 values of any length", "why_tests_cant": "Unbounded lists and wrap-around deltas.", "anchors": ["internal/pb/32.go", "internal/pb/64.go"]}
{"id": "C07", "title": "Zero-terminated delta lists decode to the prefix before the first repeat", "statement": "Decoding a zero-terminated delta list returns exactly the longest prefix in which no element equals its predecessor (0 before the first); in particular lists without sequential duplicates and not starting with 0 round-trip, independent of what bytes follow the terminator.", "quantifier": "every list of int64 values and every trailing byte sequence", "why_tests_cant": "The documented caveat is about all lists; tests only sample.", "anchors": ["internal/pb/64.go:EncodeS64PackedDeltaZero", "internal/pb/64.go:DecodeS64PackedDeltaZero"]}
{"id": "C08", "title": "Length-prefixed bytes and strings round-trip", "statement": "A byte buffer or string written length-prefixed is read back byte for byte and the cursor ends right after it.", "quantifier": "every byte sequence (length below 2^63), every prefix/suffix", "why_tests_cant": "Unbounded contents and lengths around varint size boundaries.", "anchors": ["internal/pb/buffer.go"]}
{"id": "C09", "title": "Embedded sub-messages carry their exact length or abort", "statement": "Writing a sub-message with a reserved fixed-width length (1, 2, 3 or 4 bytes) yields a field whose decoded length is exactly the sub-message size and whose payload is exactly the sub-message; it panics exactly when the sub-message does not fit the reservation, never emitting a wrong length.", "quantifier": "every field id, every sub-message of every size, every existing output prefix", "why_tests_cant": "Boundary sizes 2^7, 2^14, 2^21, 2^28 and all payloads.", "anchors": ["internal/pb/embed.go"]}
{"id": "C10", "title": "A nested message never reads bytes outside its declared extent", "statement": "When a length inside a nested message claims more bytes than the nested message has, the reader rejects the input rather than silently reading bytes that belong to the enclosing buffer.", "quantifier": "every input buffer and every capacity beyond its length", "why_tests_cant": "Requires adversarial lengths at every nesting level plus control over what lies beyond the slice.", "anchors": ["internal/pb/buffer.go:ReadBytes", "internal/t"]}
{"id": "C11", "title": "Reading terminates on every input", "statement": "Every reader either returns or panics on every input; it never loops forever.", "quantifier": "every byte sequence, for every reader of the package", "why_tests_cant": "Non-termination cannot be observed by a finite test and depends on adversarial lengths.", "anchors": ["internal/pb/buffer.go:SkipBytes", "internal/t/way.go:ReadWay", "internal/t/relation.go:ReadRelation", "internal/t/dense_nodes.go:ReadDenseNodes", "internal/t/primitive_group.go:ReadPrimitiveGroup"]}
{"id": "C12", "title": "A successful read does not depend on bytes beyond the buffer", "statement": "If reading a buffer succeeds when nothing lies beyond its end, then it gives the same result whatever the memory after its end contains (pool leftovers, following blobs).", "quantifier": "every buffer, every content of memory after it", "why_tests_cant": "Requires quantifying over all hidden capacity contents.", "anchors": ["internal/pb/buffer.go", "internal/pool/bytebuffer.go", "internal/t"]}
{"id": "C13", "title": "String table round-trip", "statement": "Writing a string table and reading it back yields the same strings in the same order.", "quantifier": "every list of byte strings", "why_tests_cant": "Unbounded lists and string contents.", "anchors": ["internal/t/string_table_builder.go", "internal/t/primitive_block_nodes.go"]}
{"id": "C14", "title": "Dense nodes round-trip", "statement": "Writing dense nodes and reading them back yields the same ids, latitudes, longitudes and key/values, whenever the write does not panic.", "quantifier": "every dense-node record with int64/int32 entries", "why_tests_cant": "Unbounded arrays, full integer ranges.", "anchors": ["internal/t/dense_nodes.go"]}
{"id": "C15", "title": "Way round-trip", "statement": "Writing a way and reading it back yields the same id, keys, values and refs, whenever the write does not panic.", "quantifier": "every way", "why_tests_cant": "Unbounded arrays, full integer ranges.", "anchors": ["internal/t/way.go"]}
{"id": "C16", "title": "Every way within the OSM size limit can be written", "statement": "A way with at most 2000 refs can be written inside a primitive group without panicking.", "quantifier": "every way with at most 2000 refs", "why_tests_cant": "Depends on the worst-case total size over all ref values.", "anchors": ["internal/t/way.go:Write", "internal/t/primitive_group.go:Write"]}
{"id": "C17", "title": "Relation round-trip", "statement": "Writing a relation and reading it back yields the same id, keys, values, roles, members and member types, whenever the write does not panic.", "quantifier": "every relation", "why_tests_cant": "Unbounded arrays, full integer ranges.", "anchors": ["internal/t/relation.go"]}
{"id": "C18", "title": "Primitive group round-trip", "statement": "Writing a primitive group (dense nodes, ways, relations, or their raw skipped forms) and reading it back gives the same group.", "quantifier": "every group and every skip setting of the reader", "why_tests_cant": "Unbounded nesting contents.", "anchors": ["internal/t/primitive_group.go"]}
{"id": "C19", "title": "Primitive block round-trip", "statement": "Writing a primitive block and reading it back gives the same string table, groups, granularity, date granularity and offsets, including values equal to the omitted defaults.", "quantifier": "every block and every skip setting of the reader", "why_tests_cant": "Unbounded contents and defaults interplay.", "anchors": ["internal/t/primitive_block.go"]}
{"id": "C20", "title": "Skipped sections are preserved byte for byte", "statement": "Reading a block with a section skipped and writing it again preserves the bytes of that section exactly.", "quantifier": "every block, every skip setting", "why_tests_cant": "All byte contents of the skipped section.", "anchors": ["internal/t/primitive_group.go", "internal/t/primitive_block.go"]}
{"id": "C21", "title": "Blob and blob header round-trip", "statement": "Writing a blob or blob header and reading it back gives the same fields.", "quantifier": "every blob with raw and/or compressed payload, every header with int32 size", "why_tests_cant": "Unbounded payloads.", "anchors": ["internal/t/blob.go", "internal/t/blob_header.go"]}
{"id": "C22", "title": "Dense tag lookup returns exactly the i-th node's tags", "statement": "For the interleaved key/value array of a dense group, looking up node i returns the keys and values between the (i-1)-th and i-th delimiter, in any lookup order and any number of times; no key/values array means no tags.", "quantifier": "every list of per-node tag lists with non-zero keys, every sequence of lookups", "why_tests_cant": "Depends on caching across an arbitrary history of calls.", "anchors": ["internal/t/dense_nodes.go:GetKeyVals"]}
{"id": "C23", "title": "String table builder assigns each string one stable index", "statement": "After finalisation, every string ever added (and the empty string) has exactly one index, the table entry at that index is that string, different strings have different indices, and asking for a string never added panics.", "quantifier": "every sequence of added strings", "why_tests_cant": "Histories are unbounded.", "anchors": ["internal/t/string_table_builder.go"]}
{"id": "C24", "title": "String table is ordered by frequency then bytes", "statement": "The finalised table lists strings by decreasing number of times added, ties broken by byte order, with the empty string first.", "quantifier": "every sequence of added strings", "why_tests_cant": "Histories are unbounded; counter wrap-around needs 2^32 wide reasoning.", "anchors": ["internal/t/string_table_builder.go:Finalize"]}
{"id": "C25", "title": "Block encoding does not depend on map iteration order", "statement": "Building a block from the same entities yields the same block whatever order Go iterates the tag maps in.", "quantifier": "every set of entities and every permutation of every tag map's iteration order", "why_tests_cant": "Map iteration order is randomised by the runtime; a test sees one order per run.", "anchors": ["internal/t/string_table_builder.go", "internal/t/primitive_block.go:MakePrimitiveBlock"]}
{"id": "C26", "title": "Built blocks decode to the same ways and relations", "statement": "Ways and relations put into a block are read back with the same ids, tags, refs, members, types and roles, in order.", "quantifier": "every list of ways and relations", "why_tests_cant": "Unbounded entities and strings.", "anchors": ["internal/t/primitive_block.go", "internal/t/primitive_block_ways.go", "internal/t/primitive_block_relations.go"]}
{"id": "C27", "title": "Built blocks decode to the same nodes", "statement": "Nodes put into a block are read back with the same ids, tags and coordinates (to 100 nanodegrees), in order.", "quantifier": "every list of nodes, together with any ways and relations in the same block", "why_tests_cant": "Depends on the joint string table of all entities in the block.", "anchors": ["internal/t/primitive_block_nodes.go", "internal/t/string_table_builder.go"]}
{"id": "C28", "title": "Coordinate quantisation is bounded", "statement": "Re-encoding a coordinate at granularity 100 moves it towards zero by less than 100 nanodegrees and leaves multiples of 100 unchanged.", "quantifier": "every int64 coordinate", "why_tests_cant": "Full range incl. negative values and truncating division.", "anchors": ["internal/t/primitive_block_nodes.go"]}
{"id": "C29", "title": "Entity data survives a full byte-level rewrite", "statement": "Entities -> block -> bytes -> blob -> bytes -> block -> entities is the identity on ways and relations and on coordinates rounded to 100 nanodegrees for nodes.", "quantifier": "every list of entities whose block can be written", "why_tests_cant": "Composition of all codecs.", "anchors": ["internal/t"]}
{"id": "C30", "title": "Tag deletion rule", "statement": "A tag key is deleted iff it equals one of the listed names or starts with one of the listed prefixes.", "quantifier": "every string", "why_tests_cant": "Infinite set of strings.", "anchors": ["cmd/tagfilter/tagfilterer/tagfilterer_worker.go:keepTag"]}
{"id": "C31", "title": "Tag filter keeps exactly the interesting nodes and all ways and relations", "statement": "A filtered block contains, in order, every input node having at least one kept tag, carrying exactly its kept tags, and all ways and relations unchanged; blocks with nothing left are dropped.", "quantifier": "every block", "why_tests_cant": "All inputs; map deletion during iteration in random order.", "anchors": ["cmd/tagfilter/tagfilterer/tagfilterer_worker.go"]}
{"id": "C32", "title": "Tag filter emits exactly one message per input block and never leaves pending nodes", "statement": "For any sequence of blocks handled by a worker, it emits one message per block with the same index and never hits the pending-nodes abort at the end.", "quantifier": "every sequence of blocks seen by a worker", "why_tests_cant": "Depends on the history of blocks assigned to a worker by the scheduler.", "anchors": ["cmd/tagfilter/tagfilterer/tagfilterer_worker.go"]}
{"id": "C33", "title": "Tag filtering is idempotent", "statement": "Filtering already filtered entities changes nothing.", "quantifier": "every block", "why_tests_cant": "All inputs.", "anchors": ["cmd/tagfilter/tagfilterer/tagfilterer_worker.go"]}
{"id": "C34", "title": "File framing round-trip", "statement": "A file consisting of framed blobs is split into exactly those blobs, in order, with their types and payloads; a file written by any of the tools' writers is read back as the same sequence.", "quantifier": "every sequence of typed payloads", "why_tests_cant": "Unbounded file contents.", "anchors": ["internal/pbf/process.go", "cmd/rewritenodes/rewriter/noderewriter_writer.go", "cmd/tagfilter/tagfilterer/tagfilterer_writer.go", "cmd/decompress/decompressor/decompressor_worker.go"]}
{"id": "C35", "title": "Framing rejects truncated files and unknown types and always terminates", "statement": "Splitting any byte sequence terminates, and either accounts for every byte of the file or panics; blob types other than OSMHeader/OSMData are rejected.", "quantifier": "every byte sequence", "why_tests_cant": "All malformed files.", "anchors": ["internal/pbf/process.go"]}
{"id": "C36", "title": "Reordering delivers blocks in index order whatever the arrival order", "statement": "If blocks 0..n-1 arrive in any order, each once, they are forwarded exactly once, in increasing index order, each as soon as all smaller ones have arrived, and the end-of-input check passes; if some index is missing while a larger arrived, the end-of-input check aborts.", "quantifier": "every permutation of every finite block sequence", "why_tests_cant": "n! arrival orders.", "anchors": ["internal/pbf/reorder.go"]}
{"id": "C37", "title": "The parallel pipeline is equivalent to sequential processing", "statement": "For every schedule and number of workers, the writer receives at every moment a prefix of the sequential result, and at completion exactly the per-block results in file order; no abort is ever raised by the reorderer.", "quantifier": "every interleaving of reader, workers, reorderer and writer; every worker count >= 1; every block list", "why_tests_cant": "Interleavings are unbounded.", "anchors": ["internal/pbf/process.go", "internal/pbf/reorder.go"]}
{"id": "C38", "title": "The pipeline never deadlocks and always completes", "statement": "From every reachable state some goroutine can move until completion, and there is no infinite run, for at least one worker, with or without cancellation.", "quantifier": "every interleaving", "why_tests_cant": "Absence of deadlock ranges over all schedules.", "anchors": ["internal/pbf/process.go"]}
{"id": "C39", "title": "Cancellation yields an in-order prefix", "statement": "If the run is cancelled at any point, the writer still receives exactly the results of the first k blocks, in order, for some k, and shutdown completes.", "quantifier": "every cancellation point and interleaving", "why_tests_cant": "Timing-dependent.", "anchors": ["internal/pbf/process.go"]}
{"id": "C40", "title": "Without a writer every block is handled exactly once", "statement": "In count/find tools each block is handled by exactly one worker exactly once, for every schedule.", "quantifier": "every interleaving", "why_tests_cant": "Timing-dependent.", "anchors": ["internal/pbf/process.go", "cmd/blockcount/blockcount.go"]}
{"id": "C41", "title": "Morton encoding is a bijection with the documented bit layout", "statement": "Bit i of the even input is bit 2i and bit i of the odd input is bit 2i+1 of the code; decode(encode(e,o)) = (e,o) and encode(decode x) = x.", "quantifier": "every pair of int32 and every uint64", "why_tests_cant": "2^64 inputs.", "anchors": ["internal/morton/morton.go"]}
{"id": "C42", "title": "Encoded locations are negative and never zero, and recover latitude and longitude", "statement": "The stored location of a coordinate is a negative int64 (so it is distinguishable from ids and from 0 = absent) and decodes to the same longitude and latitude for every latitude in [-90,90].", "quantifier": "every lon in int32 and every lat in [-2^30, 2^30)", "why_tests_cant": "2^62 coordinates.", "anchors": ["internal/morton/morton.go:DecodeLocation", "cmd/nodeindex/indexer/nodeindexer_worker.go"]}
{"id": "C43", "title": "Encoded locations follow ENCODING.md", "statement": "The stored location equals the formula in ENCODING.md: even = lon*1e7, odd = (lat*1e7 >> 1) | 0x80000000.", "quantifier": "every coordinate", "why_tests_cant": "All coordinates.", "anchors": ["ENCODING.md", "cmd/nodeindex/indexer/nodeindexer_worker.go"]}
{"id": "C44", "title": "Count/offset packing is lossless or rejected", "statement": "Packing a count and an offset either panics or yields a word from which exactly that count and offset are read back.", "quantifier": "every count and offset", "why_tests_cant": "Boundary 2^24 and 2^40.", "anchors": ["internal/nodeindex/count_offset.go"]}
{"id": "C45", "title": "Node lookup equals linear search for every hint", "statement": "On an index whose ranges are ascending and disjoint, looking up an id returns the stored location of the range containing it (found iff non-zero) and not-found if no range contains it, for every hint >= 0; the returned hint is valid and, after a hit, points at the range containing the id.", "quantifier": "every sorted index, every id, every non-negative hint", "why_tests_cant": "Unbounded indexes and hints.", "anchors": ["internal/nodeindex/nodesubindex.go"]}
{"id": "C46", "title": "Node index file format round-trip", "statement": "A file written by the indexer opens as an index with the same ranges and locations.", "quantifier": "every sequence of batches", "why_tests_cant": "Unbounded file contents.", "anchors": ["cmd/nodeindex/indexer/nodeindexer_writer.go", "internal/nodeindex/nodeindex.go", "internal/iunsafe/slices.go"]}
{"id": "C47", "title": "Every node of an ascending input is found at its own location, absent ids are not found", "statement": "After indexing an input with ascending node ids, looking up each input id yields the encoded location of that node, and looking up any other id yields not-found.", "quantifier": "every ascending sequence of blocks of nodes", "why_tests_cant": "Unbounded inputs; id gaps 0,1,>1 and block boundaries combine freely.", "anchors": ["cmd/nodeindex/indexer", "internal/nodeindex"]}
{"id": "C48", "title": "Passes partition the node index", "statement": "For every number of passes, the sub-indexes of the passes are consecutive, non-overlapping and together cover the whole index, and creating them never panics.", "quantifier": "every index and every pass count", "why_tests_cant": "Combination of arbitrary range sizes and pass counts.", "anchors": ["internal/nodeindex/nodeindex.go:SubIndex"]}
{"id": "C49", "title": "A crash before completion leaves a node index that is refused", "statement": "If the indexer stops at any point before the final header write, opening the file panics instead of yielding an index.", "quantifier": "every crash point", "why_tests_cant": "All prefixes of the write sequence.", "anchors": ["cmd/nodeindex/indexer/nodeindexer_writer.go", "internal/nodeindex/nodeindex.go"]}
{"id": "C50", "title": "A cancelled run leaves an index that is refused", "statement": "If the run is cancelled before all locations are copied, opening the resulting file panics.", "quantifier": "every cancellation point", "why_tests_cant": "Timing-dependent.", "anchors": ["cmd/nodeindex/indexer/nodeindexer_writer.go"]}
{"id": "C51", "title": "Index dump self-check never reports a mismatch", "statement": "For an index with ascending disjoint ranges, the value extracted by position equals the value found by search for every id of every range.", "quantifier": "every sorted index", "why_tests_cant": "Unbounded indexes.", "anchors": ["cmd/dumpnodeindex/dumpnodeindex.go"]}
{"id": "C52", "title": "Node rewriting replaces exactly the known refs", "statement": "After a single pass each way ref that is non-negative and present in the index is replaced by its location and every other ref is left unchanged, in order; all other way data and all other sections are unchanged.", "quantifier": "every block and index", "why_tests_cant": "All inputs.", "anchors": ["cmd/rewritenodes/rewriter/noderewriter_worker.go"]}
{"id": "C53", "title": "Multi-pass rewriting equals single-pass rewriting", "statement": "Running any number of passes over sub-indexes gives the same refs as one pass over the whole index.", "quantifier": "every index, every ref list, every pass count", "why_tests_cant": "Arbitrary interplay between passes and ranges.", "anchors": ["cmd/rewritenodes/rewritenodes.go", "cmd/rewritenodes/rewriter/noderewriter_worker.go", "internal/nodeindex/nodeindex.go"]}
{"id": "C54", "title": "Rewriter leaves no temporary files and never touches its input", "statement": "After any number of passes the only file created or changed is the output; all pass files are removed; the output is the last pass's result.", "quantifier": "every pass count and file system content", "why_tests_cant": "Loop over passes with removal of earlier files.", "anchors": ["cmd/rewritenodes/rewritenodes.go"]}
{"id": "C55", "title": "Way id/offset packing is lossless or rejected", "statement": "Packing a way id and an offset either panics or yields a word from which exactly that id and offset are read back.", "quantifier": "every int64 id and offset", "why_tests_cant": "Boundaries 2^31, 2^33 and negatives.", "anchors": ["internal/wayindex/indexdata.go"]}
{"id": "C56", "title": "Location blocks are aligned and non-overlapping", "statement": "Each way's location block starts at a multiple of 2^alignment, padding is 1..2^alignment zero bytes, and the next block starts right after it.", "quantifier": "every sequence of ways, every alignment >= 0", "why_tests_cant": "Unbounded sequences.", "anchors": ["cmd/wayindex/wayindexer/wayindexer_worker.go"]}
{"id": "C57", "title": "Every way of an ascending input is found with its refs, absent ids are not found", "statement": "After indexing ways with ascending ids in [0,2^31), looking up each id yields its refs with sequential duplicates (and leading zeros) removed, and looking up any other id yields not-found, for every hint and alignment.", "quantifier": "every ascending sequence of blocks of ways", "why_tests_cant": "Unbounded inputs.", "anchors": ["cmd/wayindex/wayindexer", "internal/wayindex"]}
{"id": "C58", "title": "Passes cover the way index", "statement": "For every number of passes, every way is contained in the sub-index of some pass, and creating sub-indexes never panics.", "quantifier": "every index and pass count", "why_tests_cant": "Combination of arbitrary block sizes and pass counts.", "anchors": ["internal/wayindex/wayindex.go:SubIndexWithScaledPass"]}
{"id": "C59", "title": "Way index file format round-trip", "statement": "A file written by the way indexer opens as an index with the same entries, locations and alignment.", "quantifier": "every sequence of batches", "why_tests_cant": "Unbounded contents.", "anchors": ["cmd/wayindex/wayindexer/wayindexer_writer.go", "internal/wayindex/wayindex.go"]}
{"id": "C60", "title": "A crash before completion leaves a way index that is refused", "statement": "If the way indexer stops at any point before the final header write, opening the file panics instead of yielding an index.", "quantifier": "every crash point", "why_tests_cant": "All prefixes of the write sequence.", "anchors": ["cmd/wayindex/wayindexer/wayindexer_writer.go", "internal/wayindex/wayindex.go"]}
{"id": "C61", "title": "Relation index lists every relation's ways with their locations", "statement": "The relation index contains, in file order, each relation id, its number of way members, and for each way member in order the way id, the number of locations and the locations from the way index (0 if the way is unknown).", "quantifier": "every list of relations with positive way ids, every way index", "why_tests_cant": "Unbounded inputs.", "anchors": ["cmd/relindex/relindex.go", "cmd/relindex/relindexerinit"]}
{"id": "C62", "title": "Relation index is independent of the number of passes", "statement": "Any number of passes gives the same relation index as one pass.", "quantifier": "every input and pass count", "why_tests_cant": "Arbitrary interplay between passes and ranges.", "anchors": ["cmd/relindex/relindex.go"]}
{"id": "C63", "title": "Relation indexing accepts every input", "statement": "Relation indexing does not abort on inputs without relations or with way member ids that are zero or negative.", "quantifier": "every PBF input", "why_tests_cant": "Corner cases of the intermediate encoding.", "anchors": ["cmd/relindex/relindex.go"]}
{"id": "C64", "title": "Borrowed buffers have the requested length and are never shared", "statement": "For every history of borrow and return operations, a borrowed buffer has exactly the requested length and no two outstanding borrows share storage.", "quantifier": "every interleaving of Get and Put and every choice the pool makes", "why_tests_cant": "Depends on garbage collection and scheduling.", "anchors": ["internal/pool/bytebuffer.go"]}
{"id": "C65", "title": "Decompression returns exactly the declared number of leading bytes whatever the read chunking", "statement": "If decompressing a blob returns, the result is the first RawSize bytes of the decompressed stream for any sequence of partial reads and any pooled capacity; if the stream has exactly RawSize bytes it does not panic; if it is shorter it panics.", "quantifier": "every stream, every chunking of reads, every buffer capacity", "why_tests_cant": "Chunking is up to the decompressor.", "anchors": ["internal/t/blob.go:decodeZLib"]}
{"id": "C66", "title": "Decompress tool preserves content", "statement": "The decompressed file has the same sequence of blob types and decompressed payloads as the input.", "quantifier": "every input file", "why_tests_cant": "All contents.", "anchors": ["cmd/decompress"]}
{"id": "C67", "title": "Decompress tool is idempotent", "statement": "Decompressing an already decompressed file reproduces it byte for byte.", "quantifier": "every input file", "why_tests_cant": "All contents.", "anchors": ["cmd/decompress"]}
{"id": "C68", "title": "Writes are complete under partial writes", "statement": "Writing a buffer appends exactly its bytes to the file for every sequence of positive partial write sizes; it panics on error or zero write.", "quantifier": "every buffer and every sequence of partial write results", "why_tests_cant": "OS-chosen partial writes.", "anchors": ["internal/iio/wrappers.go:FWrite"]}
{"id": "C69", "title": "File-to-file copy is complete for any read chunking", "statement": "The copy loop transfers the whole source for every sequence of read sizes, and a prefix of it when cancelled.", "quantifier": "every source content, chunking and cancellation point", "why_tests_cant": "OS-chosen chunking.", "anchors": ["internal/iio/wrappers.go:FCopy", "cmd/nodeindex/indexer/nodeindexer_writer.go"]}
{"id": "C70", "title": "Word slices and byte slices convert losslessly", "statement": "Writing 64-bit words and reinterpreting the bytes gives the same words, little endian; trailing partial words are ignored.", "quantifier": "every list of 64-bit words and every byte sequence", "why_tests_cant": "All contents and lengths.", "anchors": ["internal/iunsafe/slices.go", "internal/iio/wrappers.go"]}
{"id": "C71", "title": "Concurrent maximum is the true maximum", "statement": "After all workers merged their values with the lock-free maximum, the shared value is the maximum of the initial value and all merged values, for every interleaving.", "quantifier": "every interleaving of every number of workers", "why_tests_cant": "Race interleavings.", "anchors": ["cmd/entitycount/entitycount.go:atomicSetMaximum"]}
{"id": "C72", "title": "Entity counts are exact for every distribution of blocks", "statement": "The reported block, node, way, ref and relation counts and maxima equal those of a sequential scan, for every distribution of blocks to workers and every merge order.", "quantifier": "every distribution and schedule", "why_tests_cant": "Scheduling.", "anchors": ["cmd/entitycount/entitycount.go"]}
{"id": "C73", "title": "Worker tracking lists exactly the live workers", "statement": "For every history of track/untrack calls the listed workers are exactly those tracked and not yet untracked, in tracking order, and the version changes on every call.", "quantifier": "every history", "why_tests_cant": "Histories are unbounded.", "anchors": ["internal/tracker/worker_tracker.go"]}
{"id": "C74", "title": "The worker display never stays stale", "statement": "After any interleaving of worker registrations and display refreshes, a refresh started after the last registration finished shows exactly the registered workers.", "quantifier": "every interleaving", "why_tests_cant": "Race between version bump and list update.", "anchors": ["internal/tracker/widget_workers.go", "internal/tracker/worker_tracker.go"]}
{"id": "C75", "title": "Progress markup shows the text literally", "statement": "Rendering the progress markup shows the original text, padded to the width, with a highlighted prefix, whatever characters (including percent signs) it contains and whatever the progress.", "quantifier": "every text, width and progress", "why_tests_cant": "All texts and progress values.", "anchors": ["internal/ui/format.go"]}
{"id": "C76", "title": "A cancelled way index run leaves nothing that opens", "statement": "If the way indexer is cancelled while it copies locations, the file it leaves is refused when opened instead of yielding an index with locations missing.", "quantifier": "every cancellation point and every sequence of batches", "why_tests_cant": "Timing of cancellation is arbitrary.", "anchors": ["cmd/wayindex/wayindexer/wayindexer_writer.go", "internal/wayindex/wayindex.go"]}
{"id": "C77", "title": "Dumping a way index prints every way with its locations, found both ways", "statement": "For every well-formed way index the dump prints every way once, in order, with its locations, and the search prints the same locations and reports no failure.", "quantifier": "every well-formed index", "why_tests_cant": "Unbounded contents.", "anchors": ["cmd/dumpwayindex/dumpwayindex.go", "internal/wayindex/subindex.go"]}
{"id": "C78", "title": "Finding entities prints exactly those with a requested id", "statement": "For every block the search prints its nodes, ways and relations whose id is requested, in order and once each, and all workers together print exactly what a sequential scan would, for every distribution of blocks and every schedule.", "quantifier": "every file, every list of ids, every distribution and schedule", "why_tests_cant": "Scheduling and unbounded contents.", "anchors": ["cmd/entityfind/entityfind.go"]}
{"id": "C79", "title": "A cancelled rewrite leaves a fully rewritten prefix of the input", "statement": "Whenever and in whichever pass a rewrite is cancelled, if the run ends normally its output is the complete single-pass result for the input cut after some blob (the whole input if it was not cancelled); no block in it was rewritten by only some of the passes, the pass files are gone and no other file has changed.", "quantifier": "every input file and index, number of passes and workers, schedule and moment of cancellation", "why_tests_cant": "The moment of cancellation and the schedule are arbitrary, and the loop goes on after a cancelled pass.", "anchors": ["cmd/rewritenodes/rewritenodes.go", "internal/pbf/process.go", "cmd/rewritenodes/rewriter/noderewriter_writer.go"]}
{"id": "C80", "title": "A cancelled decompression or relation index covers exactly a prefix of the input", "statement": "However it is scheduled and whenever it is cancelled, the decompress tool leaves a file with the types and payloads of the first blobs of its input, and the relation indexer goes on as if its input had consisted of its first blocks only; if not cancelled, of all of them.", "quantifier": "every input file, number of workers, schedule and moment of cancellation", "why_tests_cant": "Schedules and cancellation points.", "anchors": ["cmd/decompress/decompressor/decompressor_worker.go", "cmd/relindex/relindex.go", "internal/pbf/process.go"]}
{"id": "C81", "title": "The tag filter's output file is readable and has one blob per remaining block", "statement": "For every schedule, number of workers and moment of cancellation, the file the tag filter leaves can be read again, and its blobs are, in input order, what the filter makes of each of the first blocks (of all, if not cancelled), with the blocks of which nothing is kept left out.", "quantifier": "every input file, number of workers, schedule and moment of cancellation", "why_tests_cant": "Schedules and cancellation points.", "anchors": ["cmd/tagfilter/tagfilterer/tagfilterer_worker.go", "cmd/tagfilter/tagfilterer/tagfilterer_writer.go", "internal/pbf/process.go"]}
{"id": "C82", "title": "Readers accept what the OSM PBF schema allows", "statement": "Every way, relation, dense section, string table, group, block, blob and blob header encoded as osmformat.proto and fileformat.proto define it, with its fields in any order and varints of any width, is read as the data the schema assigns to it.", "quantifier": "every message and every encoding of it", "why_tests_cant": "Infinitely many encodings of the same data; other writers than this one produce them.", "anchors": ["internal/t/way.go:ReadWay", "internal/t/relation.go:ReadRelation", "internal/t/dense_nodes.go:ReadDenseNodes", "internal/t/primitive_group.go:ReadPrimitiveGroup", "internal/t/primitive_block.go:ReadPrimitiveBlock", "internal/t/blob.go:ReadBlob", "internal/t/blob_header.go:ReadBlobHeader"]}
{"id": "C83", "title": "Writers produce what the OSM PBF schema defines", "statement": "What the writers append for any way, relation, dense section, string table, group, block, blob or blob header is a message that osmformat.proto or fileformat.proto, read independently of this code, assigns the same data to: field numbers, wire types, packing, delta and zigzag coding, defaults.", "quantifier": "every value", "why_tests_cant": "Round trips through the same code do not show it: a mistake made in both directions goes unnoticed.", "anchors": ["internal/t/way.go:Write", "internal/t/relation.go:Write", "internal/t/dense_nodes.go:Write", "internal/t/primitive_group.go:Write", "internal/t/primitive_block.go:Write", "internal/t/blob.go:Write", "internal/t/blob_header.go:Write"]}
{"id": "C84", "title": "Rewriting keeps everything but the refs of ways", "statement": "Whatever conforming OSM PBF file is rewritten, compressed or not, the output is again a conforming file with the same blocks, strings, nodes, ways, relations and headers in the same order; only the refs of ways differ, each replaced by the location the index has for it, or kept if it has none.", "quantifier": "every conforming file, every index, every number of passes", "why_tests_cant": "Infinitely many encodings of the input; parts of a block are copied without being decoded.", "anchors": ["cmd/rewritenodes/rewritenodes.go", "cmd/rewritenodes/rewriter/noderewriter_worker.go", "cmd/rewritenodes/rewriter/noderewriter_writer.go", "internal/t/primitive_block.go"]}
{"id": "C85", "title": "From the OSM file to the relation index: every relation is listed with the locations of its nodes", "statement": "Index the nodes of any conforming OSM file, rewrite it with that index, index the ways of the result and then the relations: the relation index lists every relation of the original file in order, each with its ways, and each way with the locations of its nodes (with successive equal locations given once; a node that is not in the file by its id).", "quantifier": "every conforming file, every compression, every number of passes", "why_tests_cant": "Four tools and three file formats in a row; unbounded contents.", "anchors": ["cmd/nodeindex/nodeindex.go", "cmd/rewritenodes/rewritenodes.go", "cmd/wayindex/wayindex.go", "cmd/relindex/relindex.go"]}
{"id": "C86", "title": "The tool chain completes on every file within limits", "statement": "On a conforming file with blocks under 32 MiB, at most 8000 ways in a block and at most 1600 tags and refs in a way, the rewriter finishes for every index and every number of passes into which the index can be divided, and node index, rewriting in one pass, way index and relation index all complete.", "quantifier": "every conforming file within these limits", "why_tests_cant": "Absence of panics for all contents.", "anchors": ["cmd/rewritenodes/rewritenodes.go", "internal/t/primitive_block.go", "internal/pb/embed.go", "cmd/relindex/relindex.go"]}
{"id": "C87", "title": "A decompressed file is an OSM file with the same contents", "statement": "However it is scheduled and whenever it is cancelled, what a decompression of a conforming OSM file leaves is again a conforming OSM file with the contents of its first blocks (of all, if not cancelled), and it is within the limits of the other tools if the input was.", "quantifier": "every conforming file, number of workers, schedule and moment of cancellation", "why_tests_cant": "Schedules, cancellation points and infinitely many encodings.", "anchors": ["cmd/decompress/decompressor/decompressor_worker.go", "internal/t/blob.go", "internal/pbf/process.go"]}
{"id": "C88", "title": "The filtered file is an OSM file with the elements of the input, filtered", "statement": "However it is scheduled and whenever it is cancelled, what the tag filter leaves is a conforming OSM file: headers, ways and relations as in the input, nodes with a tag that is not deleted with just those tags, coordinates cut to the granularity, nothing else, in the order of the input, up to a block boundary (all of it, if not cancelled).", "quantifier": "every conforming file, number of workers, schedule and moment of cancellation", "why_tests_cant": "Schedules, cancellation points, infinitely many contents and encodings.", "anchors": ["cmd/tagfilter/tagfilterer/tagfilterer_worker.go", "cmd/tagfilter/tagfilterer/tagfilterer_writer.go", "internal/t/string_table_builder.go", "internal/t/primitive_block_nodes.go", "internal/t/primitive_block.go", "internal/pbf/process.go"]}
{"id": "C89", "title": "Filtering the rewritten file changes nothing of what the indexes list", "statement": "The tag filter keeps id, nodes and order of all ways and id, members, member types and order of all relations of any conforming file, and of the nodes it only leaves some out; so a way index made from the filtered file and a relation index made with it list what they list without filtering.", "quantifier": "every conforming file, schedule, number of workers and passes", "why_tests_cant": "Five tools in a row; unbounded contents.", "anchors": ["cmd/tagfilter/tagfilterer/tagfilterer_worker.go", "cmd/tagfilter/tagfilterer/tagfilterer_writer.go", "cmd/wayindex/wayindex.go", "cmd/relindex/relindex.go"]}
{"id": "C90", "title": "A rewrite that is killed at any moment spoils nothing and can be started again", "statement": "Wherever a rewrite ends in between - killed, out of disk space, by a panic - and however often: the input and all files but the output and its own pass files are untouched, and before the last pass the output file is too; running it again has the same outcome as if the earlier runs had not been, and leaves no file of theirs; an output file that is not complete is refused by every tool that reads it, or is the complete result for the input cut after some blob.", "quantifier": "every input, index, number of passes and workers, schedule, every moment a run may end at, every number of such runs", "why_tests_cant": "Crash points and schedules.", "anchors": ["cmd/rewritenodes/rewritenodes.go:main", "cmd/rewritenodes/rewriter/noderewriter_writer.go", "internal/pbf/process.go"]}
{"id": "C91", "title": "What a killed filter or decompression leaves is refused or is a prefix", "statement": "Whenever a run of the tag filter or of the decompression ends, in the middle of a write or between two: what is in its output file is refused by every tool that reads it, or is an OSM file with (filtered) the contents of the first blocks of the input.", "quantifier": "every input file, number of workers, schedule and moment", "why_tests_cant": "Crash points and schedules.", "anchors": ["cmd/tagfilter/tagfilterer/tagfilterer_writer.go", "cmd/decompress/decompressor/decompressor_writer.go", "internal/pbf/process.go"]}
{"id": "C92", "title": "A relation index run that is killed at any moment can be started again", "statement": "Wherever a run of the relation indexer ends in between and however often: all files but the output and its own pass files are untouched, and before the last pass the output file is too; the output file is then as before or a first part of what a run writes; running it again has the same outcome as if the earlier runs had not been, and leaves no file of theirs.", "quantifier": "every input, index, number of passes, every moment a run may end at, every number of such runs", "why_tests_cant": "Crash points.", "anchors": ["cmd/relindex/relindex.go:main"]}
{"id": "C93", "title": "Timing the lookups changes no result", "statement": "With the option to time index lookups, whatever factor is given and whatever the time stamp counter shows (going backwards, another core's), each lookup returns what it returns without the option, and its time is counted once, in the slot whose printed bounds it lies between.", "quantifier": "every factor (every float64), every pair of time stamps, every index, id and hint", "why_tests_cant": "Floating point and a hardware counter; a loop whose number of rounds depends on both.", "anchors": ["internal/nodeindex/nodesubindex.go:FindNode", "internal/wayindex/subindex.go:FindLocations", "internal/nodeindex/nodeindex.go:PrintStats"]}
{"id": "C94", "title": "The lookup statistics are exact", "statement": "The four counters printed after a rewrite: each lookup is counted exactly once - as deferred if the id is beyond those of the pass, as a hit (by the hint or not) if some range has the id, else as a miss - whatever the number of workers and the order of their lookups, so hits, deferred and missed are the numbers of such refs in the ways.", "quantifier": "every index, every list of ways, every number of workers and interleaving of their lookups", "why_tests_cant": "Interleavings of workers and unbounded contents.", "anchors": ["internal/nodeindex/nodesubindex.go:findNodeActual", "internal/wayindex/subindex.go:findLocationsActual", "cmd/rewritenodes/rewriter/noderewriter_worker.go"]}
{"id": "C95", "title": "A node index run that ends in any way never leaves wrong locations", "statement": "However an indexing run ends - finished, cancelled, a write cut short (disk full), any read, seek, truncation or close failing, the process stopped between two of its calls - the index file it leaves never gives a wrong location: it does not open, or lookups in it find nothing, or what they find is the location of the node with that id.", "quantifier": "every input, every behaviour of the operating system's calls, every pass and id looked up", "why_tests_cant": "Every point at which a run can be cut, including within a write.", "anchors": ["cmd/nodeindex/indexer", "cmd/nodeindex/nodeindex.go", "internal/nodeindex/nodeindex.go:NewNodeIndex", "internal/iio"]}
{"id": "C96", "title": "A way index run that ends in any way never leaves wrong locations", "statement": "The same for way indexes: what a lookup in a file left by any run finds for a way id is the list of locations of the refs of the way with that id.", "quantifier": "every input, alignment, every behaviour of the operating system's calls, every pass and id looked up", "why_tests_cant": "Every point at which a run can be cut, including within a write.", "anchors": ["cmd/wayindex/wayindexer", "cmd/wayindex/wayindex.go", "internal/wayindex/wayindex.go:NewWayIndex", "internal/iio"]}
{"id": "C97", "title": "The file progress shown is true", "statement": "While a file is processed, whatever its bytes are and whenever the display looks (the position keeps moving while it reads the numbers): if a position is shown, the size shown is the file's, the position is not beyond it and never less than one shown before; it lies in the frame after those of the blocks handed to the workers, and at the end of a run that is not cancelled it is the size of the file.", "quantifier": "every file, every moment of cancellation, every interleaving of the display's reads with the run", "why_tests_cant": "Three separate reads race with the reader goroutine at every step.", "anchors": ["internal/pbf/process.go", "internal/ui/widget/widget_process_state.go", "internal/ui/widget/widget_pass_progress.go"]}
{"id": "C98", "title": "The progress bars are faithful", "statement": "The highlighted part of a progress line is never longer than the line, is the whole line only when everything is done, differs from the exact share of the width by less than two characters, and never shrinks as the work goes on, within a pass and from pass to pass.", "quantifier": "every width, position, size, pass and number of passes", "why_tests_cant": "Rounding of float64 divisions, products and conversions for all values.", "anchors": ["internal/ui/format.go:MarkupAsProgress", "internal/ui/widget/widget_pass_progress.go", "internal/ui/widget/widget_process_state.go"]}
{"id": "C99", "title": "Dumping a node index prints every node with its coordinates", "statement": "After indexing a file, dumping the index prints every node of the file once, in order, with its id and its own coordinates, with either option, and never a mismatch; a range of elements prints just these; and the parts 0..n-1 of n, dumped one by one, print together what dumping the whole does.", "quantifier": "every input, every index, every choice of options, every number of parts", "why_tests_cant": "Inputs, indexes and numbers of parts are unbounded.", "anchors": ["cmd/dumpnodeindex/dumpnodeindex.go", "internal/nodeindex/nodeindex.go:SubIndex", "internal/nodeindex/nodesubindex.go", "cmd/nodeindex/indexer/nodeindexer_worker.go"]}
{"id": "C100", "title": "Dumping a way index prints every way with its locations, and a part only the part", "statement": "After indexing a file, dumping the way index prints every way once per option, in order, with what is kept of its refs, and no failure; asked for part k of n the tool prints the ways of that part only.", "quantifier": "every input, every way index, every option, every part", "why_tests_cant": "Inputs and indexes are unbounded.", "anchors": ["cmd/dumpwayindex/dumpwayindex.go", "internal/wayindex/wayindex.go:SubIndexWithScaledPass", "internal/wayindex/subindex.go"]}
{"id": "C101", "title": "A command line is refused if it breaks a rule, and what is accepted can be carried out", "statement": "A tool starts exactly if its command line can be read, has no positional arguments, gives a profile rate only with a profile file and, for the dump tools, names a part by both options with the first below the second; otherwise it exits with status 1 and a message (0 for help) before touching any file; and a command line it accepts does not make it panic.", "quantifier": "every combination of options, every index file", "why_tests_cant": "The combinations of options and files are unbounded.", "anchors": ["cmd/dumpnodeindex/args.go:parseArgs", "cmd/dumpwayindex/args.go:parseArgs", "internal/system/args.go:Validate", "internal/args/help.go:IsHelp", "cmd/nodeindex/args.go:parseArgs"]}
{"id": "C102", "title": "A worker's status line says what the worker is doing and with which block", "statement": "While a worker of decompress, nodeindex, wayindex or relindex is doing something, its status line names that activity and the number of the block it has in hand; a line drawn while the worker is getting on names an activity that was current or next when the drawing began and a block that was in hand or next before it ended.", "quantifier": "every sequence of blocks, every moment at which the line may be drawn", "why_tests_cant": "The interleavings of the drawing with the worker are unbounded, and a test sees only a few.", "anchors": ["cmd/decompress/decompressor/state/state_worker.go", "cmd/decompress/decompressor/widget/widget_state_worker.go", "cmd/decompress/decompressor/decompressor_worker.go:Worker", "cmd/nodeindex/indexer/nodeindexer_worker.go:ProcessBlock", "cmd/nodeindex/indexer/widget/widget_state_worker.go", "cmd/wayindex/wayindexer/wayindexer_worker.go:ProcessBlock", "cmd/relindex/relindexerinit/relindexer_worker.go:ProcessBlock"]}
{"id": "C103", "title": "The status line of a rewritenodes worker names the block and the way it is at", "statement": "The line of a rewritenodes worker says what it is doing and with which block and, while it rewrites, which of how many ways it is at; the number of the way never exceeds the number of ways shown with it, as long as the worker stays with one block while the line is drawn.", "quantifier": "every sequence of blocks, node index and final-pass flag, every moment at which the line may be drawn", "why_tests_cant": "The interleavings of the drawing with the worker are unbounded.", "anchors": ["cmd/rewritenodes/rewriter/noderewriter_worker.go:Worker", "cmd/rewritenodes/rewriter/state/state_worker.go", "cmd/rewritenodes/rewriter/widget/widget_state_worker.go"]}
{"id": "C104", "title": "The status line of a tagfilter worker counts the nodes kept and dropped", "statement": "The line of a tagfilter worker says what it is doing and with which block, and the numbers of nodes with and without a remaining tag in the blocks it has dealt with so far; kept and dropped together are all nodes of these blocks.", "quantifier": "every sequence of blocks, every moment at which the line may be drawn", "why_tests_cant": "The interleavings of the drawing with the worker, and the histories of blocks, are unbounded.", "anchors": ["cmd/tagfilter/tagfilterer/tagfilterer_worker.go:Worker", "cmd/tagfilter/tagfilterer/state/state_worker.go", "cmd/tagfilter/tagfilterer/widget/widget_state_worker.go"]}
{"id": "C105", "title": "Every writer leaves its whole output, or an initial part of it", "statement": "The writers of decompress, relindex, rewritenodes and tagfilter leave in their output file the whole of their output, made of the messages in the order received, if every call to the operating system succeeds and every write makes progress (writes whole buffers, for relindex); whatever the operating system answers, they end, never leave anything but an initial part of that output, and if they do not panic they leave all of it.", "quantifier": "every sequence of messages, every behaviour of the operating system (short writes, failing calls)", "why_tests_cant": "Failures and short writes of the operating system at every call cannot be enumerated.", "anchors": ["cmd/decompress/decompressor/decompressor_writer.go:Writer", "cmd/relindex/relindexerinit/relindexer_writer.go:Writer", "cmd/rewritenodes/rewriter/noderewriter_writer.go:Writer", "cmd/tagfilter/tagfilterer/tagfilterer_writer.go:Writer"]}
{"id": "C106", "title": "The status lines of the writers tell what the writer does", "statement": "The line of a writer of decompress, relindex, rewritenodes or tagfilter says whether it waits or writes and which block; a line drawn while the writer works is about something the writer was doing between the beginning and the end of drawing. The line of the tagfilter writer counts the blocks dropped out of the blocks received.", "quantifier": "every sequence of messages, every behaviour of the operating system, every moment at which the line may be drawn", "why_tests_cant": "The interleavings of the drawing with the writer, and the histories of blocks, are unbounded.", "anchors": ["cmd/decompress/decompressor/state/state_writer.go", "cmd/relindex/relindexerinit/state/state_writer.go", "cmd/rewritenodes/rewriter/noderewriter_writer.go", "cmd/tagfilter/tagfilterer/state/state_writer.go", "cmd/tagfilter/tagfilterer/widget/widget_state_writer.go"]}
{"id": "C107", "title": "The status lines of the index writers tell what the writer does and how far it has got", "statement": "The line of the writer of the node index and of the way index says whether it waits, which block it writes, whether it writes locations, how many of how many bytes of locations it has copied, or that it finishes the index. The bytes copied grow to the total, which is the size of the temporary file of locations.", "quantifier": "every sequence of messages, every behaviour of the operating system, every moment at which the line may be drawn, every moment of cancellation", "why_tests_cant": "The interleavings of the drawing with the writer, failures and histories of blocks are unbounded.", "anchors": ["cmd/nodeindex/indexer/nodeindexer_writer.go:Output", "cmd/nodeindex/indexer/state/state_writer.go", "cmd/nodeindex/indexer/widget/widget_state_writer.go", "cmd/wayindex/wayindexer/wayindexer_writer.go:Output", "cmd/wayindex/wayindexer/state/state_writer.go", "cmd/wayindex/wayindexer/widget/widget_state_writer.go"]}
{"id": "C108", "title": "Percentages on the status lines are those of the numbers beside them", "statement": "A percentage shown with numbers a/m (0 < m < 2^53, 0 <= a <= m) is a number of tenths from 0.0 to 100.0 within half a tenth (plus one part in 2^40) of 100*a/m; it never decreases as a grows; it is 0.0 at the start, and 100.0 at the end and only there. There is always a number.", "quantifier": "all pairs of numbers a <= m below 2^53", "why_tests_cant": "floating point division, multiplication and decimal formatting for every pair of 53-bit numbers", "anchors": ["internal/ui/widget/widget_process_state.go:update", "cmd/nodeindex/indexer/widget/widget_state_writer.go", "cmd/wayindex/wayindexer/widget/widget_state_writer.go"]}
{"id": "C109", "title": "The line about the input file says what is done with it and how far it is", "statement": "Whenever the display is updated during a run over a file of less than 2^53 bytes, the line about the file is one of: initializing, loading block a/m p%, sending block a/m p%, shutting down; it names the tool and the file; m is the size of the file, a the position at some moment of the update, p their percentage; the word is true of the moment at which the update began; later lines never go back; 'shutting down' means that no more blocks are sent and, unless cancelled, that all were. On screen the line is padded to the width with the share a/m of it highlighted. The line about the pass reads 'Pass p/n', counted from 1, likewise.", "quantifier": "all files, cancellations, moments of the three reads of an update, widths of the view, tool and file names", "why_tests_cant": "the display reads the record while another goroutine changes it; all interleavings and all file contents", "anchors": ["internal/ui/widget/widget_process_state.go:update", "internal/ui/widget/widget_pass_progress.go:update", "internal/pbf/process.go:processFileWork", "internal/ui/format.go:MarkupAsProgress"]}
{"id": "C110", "title": "The user interface ends with the work, and Ctrl-C cancels it", "statement": "A tool that shows widgets some times and then stops the user interface gets back from stopping it: there is no deadlock between the ticks, the event loop and Stop, however full the queue of events is. After Stop has returned nothing is drawn or cancelled any more. The work is cancelled exactly if Ctrl-C has been taken from the events, the program panics exactly if Ctrl-A has been; Stop does not panic. What is shown is always the complete set of widgets of one call, the last one made.", "quantifier": "all interleavings of the caller, the ticking goroutine, the goroutines posting events, the event loop and the keyboard; all capacities of the event queue; all sequences of calls", "why_tests_cant": "deadlocks and orders of events depend on the schedule", "anchors": ["internal/ui/ui.go:NewUI", "internal/ui/ui.go:HandleEvent", "internal/ui/ui.go:ReplaceWidgets", "internal/ui/ui.go:Stop"]}
{"id": "C111", "title": "Which blocks can be written, and how large they become", "statement": "Writing a block appends a number of bytes that can be computed from its contents (one byte per started seven bits of each number, changes between neighbours for ids, refs and coordinates, three to five bytes of framing per section), and it succeeds exactly when each section fits its frame: 16 KiB per way, 2 MiB per relation, 256 MiB per dense section, group and string table. Any other block makes the writer panic instead of writing something.", "quantifier": "every block, with any number of groups, sections, tags and refs, and every buffer written to", "why_tests_cant": "The limits are reached only by particular combinations of values; the claim is an equivalence over all blocks.", "anchors": ["internal/t/primitive_block.go:Write", "internal/t/primitive_group.go:Write", "internal/pb/embed.go:Embed16384"]}
{"id": "C112", "title": "The memory limit of a rewrite", "statement": "Given a memory limit, the node rewriter makes the least number of passes for which an equal share of the index's locations (8 bytes each) is below the limit, and in every pass the ranges looked at, but for the last one, are below it too.", "quantifier": "every index, with any number of ranges and locations, every limit, every pass", "why_tests_cant": "How the ranges fall into the passes depends on every count in the index; the claim is an arithmetic bound over all of them.", "anchors": ["cmd/rewritenodes/rewritenodes.go:main", "internal/nodeindex/nodeindex.go:SubIndex", "internal/nodeindex/nodeindex.go:LocationCount"]}
