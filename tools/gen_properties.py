#!/usr/bin/env python3
"""Source of truth for properties.jsonl (run: python3 tools/gen_properties.py)."""
import json, os
P = []
def p(id, title, statement, quantifier, why, anchors):
    P.append(dict(id=id, title=title, statement=statement, quantifier=quantifier,
                  why_tests_cant=why, anchors=anchors))

# ---------------------------------------------------------------- pb codecs
p("C01","Varint round-trip with exact consumption",
  "Encoding an unsigned 64-bit value as a varint and decoding at the position where it was written returns exactly that value and moves the cursor to the first byte after it, whatever bytes precede or follow.",
  "every uint64 value, every prefix and every suffix of the buffer",
  "2^64 values times arbitrary surrounding bytes; the ten-way switch has ten boundaries each test would have to hit on both sides.",
  ["internal/pb/varint.go:EncodeVarInt","internal/pb/varint.go:DecodeVarInt"])
p("C02","Varint encoding is canonical protobuf LEB128",
  "The bytes written for a value are the base-128 little-endian digits with continuation bits on all but the last byte, 1 to 10 bytes long, and as short as possible, so any protobuf reader understands them.",
  "every uint64 value","Conformance is a statement about all 2^64 values, not about agreement with the project's own decoder.",
  ["internal/pb/varint.go:EncodeVarInt"])
p("C03","Varint decoding is sound on arbitrary bytes",
  "On any byte sequence and any cursor the varint decoder either returns the base-128 value of the bytes it consumed (at least 1 and at most 10, all inside the buffer, value below 2^64) or panics; it panics exactly when the cursor is outside the buffer, the sequence is truncated, or the tenth byte is greater than one.",
  "every byte sequence, every cursor","Inputs are unbounded adversarial byte strings.",
  ["internal/pb/varint.go:DecodeVarInt"])
p("C04","ZigZag is the standard bijection",
  "Zigzag encoding maps n to 2n for n>=0 and to -2n-1 for n<0, and decode(encode n)=n and encode(decode u)=u.",
  "every int64 and every uint64","Range is 2^64 values including the extremes where shifts overflow.",
  ["internal/pb/varint.go:EncodeZigZag","internal/pb/varint.go:DecodeZigZag"])
p("C05","Typed scalar round-trips",
  "A scalar written with the wire form of its type (zigzag, sign-extended or unsigned varint) is read back unchanged by the matching 32/64-bit decoder, and 32-bit decoders return the low 32 bits of whatever was written.",
  "every value of each of the six scalar types","Full 32/64-bit ranges; truncation and sign extension only show at the extremes.",
  ["internal/pb/32.go","internal/pb/64.go"])
p("C06","Packed list round-trips",
  "Encoding a list of integers as a packed (optionally delta) length-prefixed field and decoding it gives the same list, consumes exactly the field, and never indexes outside the preallocated output, even when deltas overflow 64 bits.",
  "every list of int64 / int32 / uint32 / uint64 values of any length","Unbounded lists and wrap-around deltas.",
  ["internal/pb/32.go","internal/pb/64.go"])
p("C07","Zero-terminated delta lists decode to the prefix before the first repeat",
  "Decoding a zero-terminated delta list returns exactly the longest prefix in which no element equals its predecessor (0 before the first); in particular lists without sequential duplicates and not starting with 0 round-trip, independent of what bytes follow the terminator.",
  "every list of int64 values and every trailing byte sequence","The documented caveat is about all lists; tests only sample.",
  ["internal/pb/64.go:EncodeS64PackedDeltaZero","internal/pb/64.go:DecodeS64PackedDeltaZero"])
p("C08","Length-prefixed bytes and strings round-trip",
  "A byte buffer or string written length-prefixed is read back byte for byte and the cursor ends right after it.",
  "every byte sequence (length below 2^63), every prefix/suffix","Unbounded contents and lengths around varint size boundaries.",
  ["internal/pb/buffer.go"])
p("C09","Embedded sub-messages carry their exact length or abort",
  "Writing a sub-message with a reserved fixed-width length (1, 2, 3 or 4 bytes) yields a field whose decoded length is exactly the sub-message size and whose payload is exactly the sub-message; it panics exactly when the sub-message does not fit the reservation, never emitting a wrong length.",
  "every field id, every sub-message of every size, every existing output prefix","Boundary sizes 2^7, 2^14, 2^21, 2^28 and all payloads.",
  ["internal/pb/embed.go"])
p("C10","A nested message never reads bytes outside its declared extent",
  "When a length inside a nested message claims more bytes than the nested message has, the reader rejects the input rather than silently reading bytes that belong to the enclosing buffer.",
  "every input buffer and every capacity beyond its length","Requires adversarial lengths at every nesting level plus control over what lies beyond the slice.",
  ["internal/pb/buffer.go:ReadBytes","internal/t"])
p("C11","Reading terminates on every input",
  "Every reader either returns or panics on every input; it never loops forever.",
  "every byte sequence, for every reader of the package","Non-termination cannot be observed by a finite test and depends on adversarial lengths.",
  ["internal/pb/buffer.go:SkipBytes","internal/t/way.go:ReadWay","internal/t/relation.go:ReadRelation","internal/t/dense_nodes.go:ReadDenseNodes","internal/t/primitive_group.go:ReadPrimitiveGroup"])
p("C12","A successful read does not depend on bytes beyond the buffer",
  "If reading a buffer succeeds when nothing lies beyond its end, then it gives the same result whatever the memory after its end contains (pool leftovers, following blobs).",
  "every buffer, every content of memory after it","Requires quantifying over all hidden capacity contents.",
  ["internal/pb/buffer.go","internal/pool/bytebuffer.go","internal/t"])
# ---------------------------------------------------------------- messages
p("C13","String table round-trip","Writing a string table and reading it back yields the same strings in the same order.",
  "every list of byte strings","Unbounded lists and string contents.",["internal/t/string_table_builder.go","internal/t/primitive_block_nodes.go"])
p("C14","Dense nodes round-trip","Writing dense nodes and reading them back yields the same ids, latitudes, longitudes and key/values, whenever the write does not panic.",
  "every dense-node record with int64/int32 entries","Unbounded arrays, full integer ranges.",["internal/t/dense_nodes.go"])
p("C15","Way round-trip","Writing a way and reading it back yields the same id, keys, values and refs, whenever the write does not panic.",
  "every way","Unbounded arrays, full integer ranges.",["internal/t/way.go"])
p("C16","Every way within the OSM size limit can be written",
  "A way with at most 2000 refs can be written inside a primitive group without panicking.",
  "every way with at most 2000 refs","Depends on the worst-case total size over all ref values.",["internal/t/way.go:Write","internal/t/primitive_group.go:Write"])
p("C17","Relation round-trip","Writing a relation and reading it back yields the same id, keys, values, roles, members and member types, whenever the write does not panic.",
  "every relation","Unbounded arrays, full integer ranges.",["internal/t/relation.go"])
p("C18","Primitive group round-trip","Writing a primitive group (dense nodes, ways, relations, or their raw skipped forms) and reading it back gives the same group.",
  "every group and every skip setting of the reader","Unbounded nesting contents.",["internal/t/primitive_group.go"])
p("C19","Primitive block round-trip","Writing a primitive block and reading it back gives the same string table, groups, granularity, date granularity and offsets, including values equal to the omitted defaults.",
  "every block and every skip setting of the reader","Unbounded contents and defaults interplay.",["internal/t/primitive_block.go"])
p("C20","Skipped sections are preserved byte for byte",
  "Reading a block with a section skipped and writing it again preserves the bytes of that section exactly.",
  "every block, every skip setting","All byte contents of the skipped section.",["internal/t/primitive_group.go","internal/t/primitive_block.go"])
p("C21","Blob and blob header round-trip","Writing a blob or blob header and reading it back gives the same fields.",
  "every blob with raw and/or compressed payload, every header with int32 size","Unbounded payloads.",["internal/t/blob.go","internal/t/blob_header.go"])
p("C22","Dense tag lookup returns exactly the i-th node's tags",
  "For the interleaved key/value array of a dense group, looking up node i returns the keys and values between the (i-1)-th and i-th delimiter, in any lookup order and any number of times; no key/values array means no tags.",
  "every list of per-node tag lists with non-zero keys, every sequence of lookups","Depends on caching across an arbitrary history of calls.",["internal/t/dense_nodes.go:GetKeyVals"])
# ---------------------------------------------------------------- string table builder
p("C23","String table builder assigns each string one stable index",
  "After finalisation, every string ever added (and the empty string) has exactly one index, the table entry at that index is that string, different strings have different indices, and asking for a string never added panics.",
  "every sequence of added strings","Histories are unbounded.",["internal/t/string_table_builder.go"])
p("C24","String table is ordered by frequency then bytes",
  "The finalised table lists strings by decreasing number of times added, ties broken by byte order, with the empty string first.",
  "every sequence of added strings","Histories are unbounded; counter wrap-around needs 2^32 wide reasoning.",["internal/t/string_table_builder.go:Finalize"])
p("C25","Block encoding does not depend on map iteration order",
  "Building a block from the same entities yields the same block whatever order Go iterates the tag maps in.",
  "every set of entities and every permutation of every tag map's iteration order","Map iteration order is randomised by the runtime; a test sees one order per run.",["internal/t/string_table_builder.go","internal/t/primitive_block.go:MakePrimitiveBlock"])
p("C26","Built blocks decode to the same ways and relations",
  "Ways and relations put into a block are read back with the same ids, tags, refs, members, types and roles, in order.",
  "every list of ways and relations","Unbounded entities and strings.",["internal/t/primitive_block.go","internal/t/primitive_block_ways.go","internal/t/primitive_block_relations.go"])
p("C27","Built blocks decode to the same nodes",
  "Nodes put into a block are read back with the same ids, tags and coordinates (to 100 nanodegrees), in order.",
  "every list of nodes, together with any ways and relations in the same block","Depends on the joint string table of all entities in the block.",["internal/t/primitive_block_nodes.go","internal/t/string_table_builder.go"])
p("C28","Coordinate quantisation is bounded",
  "Re-encoding a coordinate at granularity 100 moves it towards zero by less than 100 nanodegrees and leaves multiples of 100 unchanged.",
  "every int64 coordinate","Full range incl. negative values and truncating division.",["internal/t/primitive_block_nodes.go"])
p("C29","Entity data survives a full byte-level rewrite",
  "Entities -> block -> bytes -> blob -> bytes -> block -> entities is the identity on ways and relations and on coordinates rounded to 100 nanodegrees for nodes.",
  "every list of entities whose block can be written","Composition of all codecs.",["internal/t"])
# ---------------------------------------------------------------- tagfilter
p("C30","Tag deletion rule","A tag key is deleted iff it equals one of the listed names or starts with one of the listed prefixes.",
  "every string","Infinite set of strings.",["cmd/tagfilter/tagfilterer/tagfilterer_worker.go:keepTag"])
p("C31","Tag filter keeps exactly the interesting nodes and all ways and relations",
  "A filtered block contains, in order, every input node having at least one kept tag, carrying exactly its kept tags, and all ways and relations unchanged; blocks with nothing left are dropped.",
  "every block","All inputs; map deletion during iteration in random order.",["cmd/tagfilter/tagfilterer/tagfilterer_worker.go"])
p("C32","Tag filter emits exactly one message per input block and never leaves pending nodes",
  "For any sequence of blocks handled by a worker, it emits one message per block with the same index and never hits the pending-nodes abort at the end.",
  "every sequence of blocks seen by a worker","Depends on the history of blocks assigned to a worker by the scheduler.",["cmd/tagfilter/tagfilterer/tagfilterer_worker.go"])
p("C33","Tag filtering is idempotent","Filtering already filtered entities changes nothing.",
  "every block","All inputs.",["cmd/tagfilter/tagfilterer/tagfilterer_worker.go"])
# ---------------------------------------------------------------- framing / pipeline
p("C34","File framing round-trip",
  "A file consisting of framed blobs is split into exactly those blobs, in order, with their types and payloads; a file written by any of the tools' writers is read back as the same sequence.",
  "every sequence of typed payloads","Unbounded file contents.",["internal/pbf/process.go","cmd/rewritenodes/rewriter/noderewriter_writer.go","cmd/tagfilter/tagfilterer/tagfilterer_writer.go","cmd/decompress/decompressor/decompressor_worker.go"])
p("C35","Framing rejects truncated files and unknown types and always terminates",
  "Splitting any byte sequence terminates, and either accounts for every byte of the file or panics; blob types other than OSMHeader/OSMData are rejected.",
  "every byte sequence","All malformed files.",["internal/pbf/process.go"])
p("C36","Reordering delivers blocks in index order whatever the arrival order",
  "If blocks 0..n-1 arrive in any order, each once, they are forwarded exactly once, in increasing index order, each as soon as all smaller ones have arrived, and the end-of-input check passes; if some index is missing while a larger arrived, the end-of-input check aborts.",
  "every permutation of every finite block sequence","n! arrival orders.",["internal/pbf/reorder.go"])
p("C37","The parallel pipeline is equivalent to sequential processing",
  "For every schedule and number of workers, the writer receives at every moment a prefix of the sequential result, and at completion exactly the per-block results in file order; no abort is ever raised by the reorderer.",
  "every interleaving of reader, workers, reorderer and writer; every worker count >= 1; every block list","Interleavings are unbounded.",["internal/pbf/process.go","internal/pbf/reorder.go"])
p("C38","The pipeline never deadlocks and always completes",
  "From every reachable state some goroutine can move until completion, and there is no infinite run, for at least one worker, with or without cancellation.",
  "every interleaving","Absence of deadlock ranges over all schedules.",["internal/pbf/process.go"])
p("C39","Cancellation yields an in-order prefix",
  "If the run is cancelled at any point, the writer still receives exactly the results of the first k blocks, in order, for some k, and shutdown completes.",
  "every cancellation point and interleaving","Timing-dependent.",["internal/pbf/process.go"])
p("C40","Without a writer every block is handled exactly once",
  "In count/find tools each block is handled by exactly one worker exactly once, for every schedule.",
  "every interleaving","Timing-dependent.",["internal/pbf/process.go","cmd/blockcount/blockcount.go"])
# ---------------------------------------------------------------- morton
p("C41","Morton encoding is a bijection with the documented bit layout",
  "Bit i of the even input is bit 2i and bit i of the odd input is bit 2i+1 of the code; decode(encode(e,o)) = (e,o) and encode(decode x) = x.",
  "every pair of int32 and every uint64","2^64 inputs.",["internal/morton/morton.go"])
p("C42","Encoded locations are negative and never zero, and recover latitude and longitude",
  "The stored location of a coordinate is a negative int64 (so it is distinguishable from ids and from 0 = absent) and decodes to the same longitude and latitude for every latitude in [-90,90].",
  "every lon in int32 and every lat in [-2^30, 2^30)","2^62 coordinates.",["internal/morton/morton.go:DecodeLocation","cmd/nodeindex/indexer/nodeindexer_worker.go"])
p("C43","Encoded locations follow ENCODING.md",
  "The stored location equals the formula in ENCODING.md: even = lon*1e7, odd = (lat*1e7 >> 1) | 0x80000000.",
  "every coordinate","All coordinates.",["ENCODING.md","cmd/nodeindex/indexer/nodeindexer_worker.go"])
# ---------------------------------------------------------------- node index
p("C44","Count/offset packing is lossless or rejected",
  "Packing a count and an offset either panics or yields a word from which exactly that count and offset are read back.",
  "every count and offset","Boundary 2^24 and 2^40.",["internal/nodeindex/count_offset.go"])
p("C45","Node lookup equals linear search for every hint",
  "On an index whose ranges are ascending and disjoint, looking up an id returns the stored location of the range containing it (found iff non-zero) and not-found if no range contains it, for every hint >= 0; the returned hint is valid and, after a hit, points at the range containing the id.",
  "every sorted index, every id, every non-negative hint","Unbounded indexes and hints.",["internal/nodeindex/nodesubindex.go"])
p("C46","Node index file format round-trip","A file written by the indexer opens as an index with the same ranges and locations.",
  "every sequence of batches","Unbounded file contents.",["cmd/nodeindex/indexer/nodeindexer_writer.go","internal/nodeindex/nodeindex.go","internal/iunsafe/slices.go"])
p("C47","Every node of an ascending input is found at its own location, absent ids are not found",
  "After indexing an input with ascending node ids, looking up each input id yields the encoded location of that node, and looking up any other id yields not-found.",
  "every ascending sequence of blocks of nodes","Unbounded inputs; id gaps 0,1,>1 and block boundaries combine freely.",["cmd/nodeindex/indexer","internal/nodeindex"])
p("C48","Passes partition the node index",
  "For every number of passes, the sub-indexes of the passes are consecutive, non-overlapping and together cover the whole index, and creating them never panics.",
  "every index and every pass count","Combination of arbitrary range sizes and pass counts.",["internal/nodeindex/nodeindex.go:SubIndex"])
p("C49","A crash before completion leaves a node index that is refused",
  "If the indexer stops at any point before the final header write, opening the file panics instead of yielding an index.",
  "every crash point","All prefixes of the write sequence.",["cmd/nodeindex/indexer/nodeindexer_writer.go","internal/nodeindex/nodeindex.go"])
p("C50","A cancelled run leaves an index that is refused",
  "If the run is cancelled before all locations are copied, opening the resulting file panics.",
  "every cancellation point","Timing-dependent.",["cmd/nodeindex/indexer/nodeindexer_writer.go"])
p("C51","Index dump self-check never reports a mismatch",
  "For an index with ascending disjoint ranges, the value extracted by position equals the value found by search for every id of every range.",
  "every sorted index","Unbounded indexes.",["cmd/dumpnodeindex/dumpnodeindex.go"])
# ---------------------------------------------------------------- rewrite
p("C52","Node rewriting replaces exactly the known refs",
  "After a single pass each way ref that is non-negative and present in the index is replaced by its location and every other ref is left unchanged, in order; all other way data and all other sections are unchanged.",
  "every block and index","All inputs.",["cmd/rewritenodes/rewriter/noderewriter_worker.go"])
p("C53","Multi-pass rewriting equals single-pass rewriting",
  "Running any number of passes over sub-indexes gives the same refs as one pass over the whole index.",
  "every index, every ref list, every pass count","Arbitrary interplay between passes and ranges.",["cmd/rewritenodes/rewritenodes.go","cmd/rewritenodes/rewriter/noderewriter_worker.go","internal/nodeindex/nodeindex.go"])
p("C54","Rewriter leaves no temporary files and never touches its input",
  "After any number of passes the only file created or changed is the output; all pass files are removed; the output is the last pass's result.",
  "every pass count and file system content","Loop over passes with removal of earlier files.",["cmd/rewritenodes/rewritenodes.go"])
# ---------------------------------------------------------------- way index
p("C55","Way id/offset packing is lossless or rejected",
  "Packing a way id and an offset either panics or yields a word from which exactly that id and offset are read back.",
  "every int64 id and offset","Boundaries 2^31, 2^33 and negatives.",["internal/wayindex/indexdata.go"])
p("C56","Location blocks are aligned and non-overlapping",
  "Each way's location block starts at a multiple of 2^alignment, padding is 1..2^alignment zero bytes, and the next block starts right after it.",
  "every sequence of ways, every alignment >= 0","Unbounded sequences.",["cmd/wayindex/wayindexer/wayindexer_worker.go"])
p("C57","Every way of an ascending input is found with its refs, absent ids are not found",
  "After indexing ways with ascending ids in [0,2^31), looking up each id yields its refs with sequential duplicates (and leading zeros) removed, and looking up any other id yields not-found, for every hint and alignment.",
  "every ascending sequence of blocks of ways","Unbounded inputs.",["cmd/wayindex/wayindexer","internal/wayindex"])
p("C58","Passes cover the way index",
  "For every number of passes, every way is contained in the sub-index of some pass, and creating sub-indexes never panics.",
  "every index and pass count","Combination of arbitrary block sizes and pass counts.",["internal/wayindex/wayindex.go:SubIndexWithScaledPass"])
p("C59","Way index file format round-trip","A file written by the way indexer opens as an index with the same entries, locations and alignment.",
  "every sequence of batches","Unbounded contents.",["cmd/wayindex/wayindexer/wayindexer_writer.go","internal/wayindex/wayindex.go"])
p("C60","A crash before completion leaves a way index that is refused",
  "If the way indexer stops at any point before the final header write, opening the file panics instead of yielding an index.",
  "every crash point","All prefixes of the write sequence.",["cmd/wayindex/wayindexer/wayindexer_writer.go","internal/wayindex/wayindex.go"])
# ---------------------------------------------------------------- relindex
p("C61","Relation index lists every relation's ways with their locations",
  "The relation index contains, in file order, each relation id, its number of way members, and for each way member in order the way id, the number of locations and the locations from the way index (0 if the way is unknown).",
  "every list of relations with positive way ids, every way index","Unbounded inputs.",["cmd/relindex/relindex.go","cmd/relindex/relindexerinit"])
p("C62","Relation index is independent of the number of passes",
  "Any number of passes gives the same relation index as one pass.",
  "every input and pass count","Arbitrary interplay between passes and ranges.",["cmd/relindex/relindex.go"])
p("C63","Relation indexing accepts every input",
  "Relation indexing does not abort on inputs without relations or with way member ids that are zero or negative.",
  "every PBF input","Corner cases of the intermediate encoding.",["cmd/relindex/relindex.go"])
# ---------------------------------------------------------------- pool / decompress
p("C64","Borrowed buffers have the requested length and are never shared",
  "For every history of borrow and return operations, a borrowed buffer has exactly the requested length and no two outstanding borrows share storage.",
  "every interleaving of Get and Put and every choice the pool makes","Depends on garbage collection and scheduling.",["internal/pool/bytebuffer.go"])
p("C65","Decompression returns exactly the declared number of leading bytes whatever the read chunking",
  "If decompressing a blob returns, the result is the first RawSize bytes of the decompressed stream for any sequence of partial reads and any pooled capacity; if the stream has exactly RawSize bytes it does not panic; if it is shorter it panics.",
  "every stream, every chunking of reads, every buffer capacity","Chunking is up to the decompressor.",["internal/t/blob.go:decodeZLib"])
p("C66","Decompress tool preserves content",
  "The decompressed file has the same sequence of blob types and decompressed payloads as the input.",
  "every input file","All contents.",["cmd/decompress"])
p("C67","Decompress tool is idempotent","Decompressing an already decompressed file reproduces it byte for byte.",
  "every input file","All contents.",["cmd/decompress"])
# ---------------------------------------------------------------- io
p("C68","Writes are complete under partial writes",
  "Writing a buffer appends exactly its bytes to the file for every sequence of positive partial write sizes; it panics on error or zero write.",
  "every buffer and every sequence of partial write results","OS-chosen partial writes.",["internal/iio/wrappers.go:FWrite"])
p("C69","File-to-file copy is complete for any read chunking",
  "The copy loop transfers the whole source for every sequence of read sizes, and a prefix of it when cancelled.",
  "every source content, chunking and cancellation point","OS-chosen chunking.",["internal/iio/wrappers.go:FCopy","cmd/nodeindex/indexer/nodeindexer_writer.go"])
p("C70","Word slices and byte slices convert losslessly",
  "Writing 64-bit words and reinterpreting the bytes gives the same words, little endian; trailing partial words are ignored.",
  "every list of 64-bit words and every byte sequence","All contents and lengths.",["internal/iunsafe/slices.go","internal/iio/wrappers.go"])
# ---------------------------------------------------------------- counts
p("C71","Concurrent maximum is the true maximum",
  "After all workers merged their values with the lock-free maximum, the shared value is the maximum of the initial value and all merged values, for every interleaving.",
  "every interleaving of every number of workers","Race interleavings.",["cmd/entitycount/entitycount.go:atomicSetMaximum"])
p("C72","Entity counts are exact for every distribution of blocks",
  "The reported block, node, way, ref and relation counts and maxima equal those of a sequential scan, for every distribution of blocks to workers and every merge order.",
  "every distribution and schedule","Scheduling.",["cmd/entitycount/entitycount.go"])
# ---------------------------------------------------------------- tracker / ui
p("C73","Worker tracking lists exactly the live workers",
  "For every history of track/untrack calls the listed workers are exactly those tracked and not yet untracked, in tracking order, and the version changes on every call.",
  "every history","Histories are unbounded.",["internal/tracker/worker_tracker.go"])
p("C74","The worker display never stays stale",
  "After any interleaving of worker registrations and display refreshes, a refresh started after the last registration finished shows exactly the registered workers.",
  "every interleaving","Race between version bump and list update.",["internal/tracker/widget_workers.go","internal/tracker/worker_tracker.go"])
p("C75","Progress markup shows the text literally",
  "Rendering the progress markup shows the original text, padded to the width, with a highlighted prefix, whatever characters (including percent signs) it contains and whatever the progress.",
  "every text, width and progress","All texts and progress values.",["internal/ui/format.go"])

# ---------------------------------------------------------------- added later
p("C76","A cancelled way index run leaves nothing that opens",
  "If the way indexer is cancelled while it copies locations, the file it leaves is refused when opened instead of yielding an index with locations missing.",
  "every cancellation point and every sequence of batches","Timing of cancellation is arbitrary.",["cmd/wayindex/wayindexer/wayindexer_writer.go","internal/wayindex/wayindex.go"])
p("C77","Dumping a way index prints every way with its locations, found both ways",
  "For every well-formed way index the dump prints every way once, in order, with its locations, and the search prints the same locations and reports no failure.",
  "every well-formed index","Unbounded contents.",["cmd/dumpwayindex/dumpwayindex.go","internal/wayindex/subindex.go"])

p("C78","Finding entities prints exactly those with a requested id",
  "For every block the search prints its nodes, ways and relations whose id is requested, in order and once each, and all workers together print exactly what a sequential scan would, for every distribution of blocks and every schedule.",
  "every file, every list of ids, every distribution and schedule","Scheduling and unbounded contents.",["cmd/entityfind/entityfind.go"])

p("C79","A cancelled rewrite leaves a fully rewritten prefix of the input",
  "Whenever and in whichever pass a rewrite is cancelled, if the run ends normally its output is the complete single-pass result for the input cut after some blob (the whole input if it was not cancelled); no block in it was rewritten by only some of the passes, the pass files are gone and no other file has changed.",
  "every input file and index, number of passes and workers, schedule and moment of cancellation","The moment of cancellation and the schedule are arbitrary, and the loop goes on after a cancelled pass.",["cmd/rewritenodes/rewritenodes.go","internal/pbf/process.go","cmd/rewritenodes/rewriter/noderewriter_writer.go"])
p("C80","A cancelled decompression or relation index covers exactly a prefix of the input",
  "However it is scheduled and whenever it is cancelled, the decompress tool leaves a file with the types and payloads of the first blobs of its input, and the relation indexer goes on as if its input had consisted of its first blocks only; if not cancelled, of all of them.",
  "every input file, number of workers, schedule and moment of cancellation","Schedules and cancellation points.",["cmd/decompress/decompressor/decompressor_worker.go","cmd/relindex/relindex.go","internal/pbf/process.go"])
p("C81","The tag filter's output file is readable and has one blob per remaining block",
  "For every schedule, number of workers and moment of cancellation, the file the tag filter leaves can be read again, and its blobs are, in input order, what the filter makes of each of the first blocks (of all, if not cancelled), with the blocks of which nothing is kept left out.",
  "every input file, number of workers, schedule and moment of cancellation","Schedules and cancellation points.",["cmd/tagfilter/tagfilterer/tagfilterer_worker.go","cmd/tagfilter/tagfilterer/tagfilterer_writer.go","internal/pbf/process.go"])

p("C82","Readers accept what the OSM PBF schema allows",
  "Every way, relation, dense section, string table, group, block, blob and blob header encoded as osmformat.proto and fileformat.proto define it, with its fields in any order and varints of any width, is read as the data the schema assigns to it.",
  "every message and every encoding of it","Infinitely many encodings of the same data; other writers than this one produce them.",["internal/t/way.go:ReadWay","internal/t/relation.go:ReadRelation","internal/t/dense_nodes.go:ReadDenseNodes","internal/t/primitive_group.go:ReadPrimitiveGroup","internal/t/primitive_block.go:ReadPrimitiveBlock","internal/t/blob.go:ReadBlob","internal/t/blob_header.go:ReadBlobHeader"])
p("C83","Writers produce what the OSM PBF schema defines",
  "What the writers append for any way, relation, dense section, string table, group, block, blob or blob header is a message that osmformat.proto or fileformat.proto, read independently of this code, assigns the same data to: field numbers, wire types, packing, delta and zigzag coding, defaults.",
  "every value","Round trips through the same code do not show it: a mistake made in both directions goes unnoticed.",["internal/t/way.go:Write","internal/t/relation.go:Write","internal/t/dense_nodes.go:Write","internal/t/primitive_group.go:Write","internal/t/primitive_block.go:Write","internal/t/blob.go:Write","internal/t/blob_header.go:Write"])

p("C84","Rewriting keeps everything but the refs of ways",
  "Whatever conforming OSM PBF file is rewritten, compressed or not, the output is again a conforming file with the same blocks, strings, nodes, ways, relations and headers in the same order; only the refs of ways differ, each replaced by the location the index has for it, or kept if it has none.",
  "every conforming file, every index, every number of passes","Infinitely many encodings of the input; parts of a block are copied without being decoded.",["cmd/rewritenodes/rewritenodes.go","cmd/rewritenodes/rewriter/noderewriter_worker.go","cmd/rewritenodes/rewriter/noderewriter_writer.go","internal/t/primitive_block.go"])
p("C85","From the OSM file to the relation index: every relation is listed with the locations of its nodes",
  "Index the nodes of any conforming OSM file, rewrite it with that index, index the ways of the result and then the relations: the relation index lists every relation of the original file in order, each with its ways, and each way with the locations of its nodes (with successive equal locations given once; a node that is not in the file by its id).",
  "every conforming file, every compression, every number of passes","Four tools and three file formats in a row; unbounded contents.",["cmd/nodeindex/nodeindex.go","cmd/rewritenodes/rewritenodes.go","cmd/wayindex/wayindex.go","cmd/relindex/relindex.go"])
p("C86","The tool chain completes on every file within limits",
  "On a conforming file with blocks under 32 MiB, at most 8000 ways in a block and at most 1600 tags and refs in a way, the rewriter finishes for every index and every number of passes into which the index can be divided, and node index, rewriting in one pass, way index and relation index all complete.",
  "every conforming file within these limits","Absence of panics for all contents.",["cmd/rewritenodes/rewritenodes.go","internal/t/primitive_block.go","internal/pb/embed.go","cmd/relindex/relindex.go"])

p("C87","A decompressed file is an OSM file with the same contents",
  "However it is scheduled and whenever it is cancelled, what a decompression of a conforming OSM file leaves is again a conforming OSM file with the contents of its first blocks (of all, if not cancelled), and it is within the limits of the other tools if the input was.",
  "every conforming file, number of workers, schedule and moment of cancellation","Schedules, cancellation points and infinitely many encodings.",["cmd/decompress/decompressor/decompressor_worker.go","internal/t/blob.go","internal/pbf/process.go"])

p("C88","The filtered file is an OSM file with the elements of the input, filtered",
  "However it is scheduled and whenever it is cancelled, what the tag filter leaves is a conforming OSM file: headers, ways and relations as in the input, nodes with a tag that is not deleted with just those tags, coordinates cut to the granularity, nothing else, in the order of the input, up to a block boundary (all of it, if not cancelled).",
  "every conforming file, number of workers, schedule and moment of cancellation","Schedules, cancellation points, infinitely many contents and encodings.",["cmd/tagfilter/tagfilterer/tagfilterer_worker.go","cmd/tagfilter/tagfilterer/tagfilterer_writer.go","internal/t/string_table_builder.go","internal/t/primitive_block_nodes.go","internal/t/primitive_block.go","internal/pbf/process.go"])

p("C89","Filtering the rewritten file changes nothing of what the indexes list",
  "The tag filter keeps id, nodes and order of all ways and id, members, member types and order of all relations of any conforming file, and of the nodes it only leaves some out; so a way index made from the filtered file and a relation index made with it list what they list without filtering.",
  "every conforming file, schedule, number of workers and passes","Five tools in a row; unbounded contents.",["cmd/tagfilter/tagfilterer/tagfilterer_worker.go","cmd/tagfilter/tagfilterer/tagfilterer_writer.go","cmd/wayindex/wayindex.go","cmd/relindex/relindex.go"])

p("C90","A rewrite that is killed at any moment spoils nothing and can be started again",
  "Wherever a rewrite ends in between - killed, out of disk space, by a panic - and however often: the input and all files but the output and its own pass files are untouched, and before the last pass the output file is too; running it again has the same outcome as if the earlier runs had not been, and leaves no file of theirs; an output file that is not complete is refused by every tool that reads it, or is the complete result for the input cut after some blob.",
  "every input, index, number of passes and workers, schedule, every moment a run may end at, every number of such runs","Crash points and schedules.",["cmd/rewritenodes/rewritenodes.go:main","cmd/rewritenodes/rewriter/noderewriter_writer.go","internal/pbf/process.go"])
p("C91","What a killed filter or decompression leaves is refused or is a prefix",
  "Whenever a run of the tag filter or of the decompression ends, in the middle of a write or between two: what is in its output file is refused by every tool that reads it, or is an OSM file with (filtered) the contents of the first blocks of the input.",
  "every input file, number of workers, schedule and moment","Crash points and schedules.",["cmd/tagfilter/tagfilterer/tagfilterer_writer.go","cmd/decompress/decompressor/decompressor_writer.go","internal/pbf/process.go"])
p("C92","A relation index run that is killed at any moment can be started again",
  "Wherever a run of the relation indexer ends in between and however often: all files but the output and its own pass files are untouched, and before the last pass the output file is too; the output file is then as before or a first part of what a run writes; running it again has the same outcome as if the earlier runs had not been, and leaves no file of theirs.",
  "every input, index, number of passes, every moment a run may end at, every number of such runs","Crash points.",["cmd/relindex/relindex.go:main"])

p("C93","Timing the lookups changes no result",
  "With the option to time index lookups, whatever factor is given and whatever the time stamp counter shows (going backwards, another core's), each lookup returns what it returns without the option, and its time is counted once, in the slot whose printed bounds it lies between.",
  "every factor (every float64), every pair of time stamps, every index, id and hint","Floating point and a hardware counter; a loop whose number of rounds depends on both.",["internal/nodeindex/nodesubindex.go:FindNode","internal/wayindex/subindex.go:FindLocations","internal/nodeindex/nodeindex.go:PrintStats"])
p("C94","The lookup statistics are exact",
  "The four counters printed after a rewrite: each lookup is counted exactly once - as deferred if the id is beyond those of the pass, as a hit (by the hint or not) if some range has the id, else as a miss - whatever the number of workers and the order of their lookups, so hits, deferred and missed are the numbers of such refs in the ways.",
  "every index, every list of ways, every number of workers and interleaving of their lookups","Interleavings of workers and unbounded contents.",["internal/nodeindex/nodesubindex.go:findNodeActual","internal/wayindex/subindex.go:findLocationsActual","cmd/rewritenodes/rewriter/noderewriter_worker.go"])
p("C95","A node index run that ends in any way never leaves wrong locations",
  "However an indexing run ends - finished, cancelled, a write cut short (disk full), any read, seek, truncation or close failing, the process stopped between two of its calls - the index file it leaves never gives a wrong location: it does not open, or lookups in it find nothing, or what they find is the location of the node with that id.",
  "every input, every behaviour of the operating system's calls, every pass and id looked up","Every point at which a run can be cut, including within a write.",["cmd/nodeindex/indexer","cmd/nodeindex/nodeindex.go","internal/nodeindex/nodeindex.go:NewNodeIndex","internal/iio"])
p("C96","A way index run that ends in any way never leaves wrong locations",
  "The same for way indexes: what a lookup in a file left by any run finds for a way id is the list of locations of the refs of the way with that id.",
  "every input, alignment, every behaviour of the operating system's calls, every pass and id looked up","Every point at which a run can be cut, including within a write.",["cmd/wayindex/wayindexer","cmd/wayindex/wayindex.go","internal/wayindex/wayindex.go:NewWayIndex","internal/iio"])
p("C97","The file progress shown is true",
  "While a file is processed, whatever its bytes are and whenever the display looks (the position keeps moving while it reads the numbers): if a position is shown, the size shown is the file's, the position is not beyond it and never less than one shown before; it lies in the frame after those of the blocks handed to the workers, and at the end of a run that is not cancelled it is the size of the file.",
  "every file, every moment of cancellation, every interleaving of the display's reads with the run","Three separate reads race with the reader goroutine at every step.",["internal/pbf/process.go","internal/ui/widget/widget_process_state.go","internal/ui/widget/widget_pass_progress.go"])
p("C98","The progress bars are faithful",
  "The highlighted part of a progress line is never longer than the line, is the whole line only when everything is done, differs from the exact share of the width by less than two characters, and never shrinks as the work goes on, within a pass and from pass to pass.",
  "every width, position, size, pass and number of passes","Rounding of float64 divisions, products and conversions for all values.",["internal/ui/format.go:MarkupAsProgress","internal/ui/widget/widget_pass_progress.go","internal/ui/widget/widget_process_state.go"])
p("C99","Dumping a node index prints every node with its coordinates",
  "After indexing a file, dumping the index prints every node of the file once, in order, with its id and its own coordinates, with either option, and never a mismatch; a range of elements prints just these; and the parts 0..n-1 of n, dumped one by one, print together what dumping the whole does.",
  "every input, every index, every choice of options, every number of parts","Inputs, indexes and numbers of parts are unbounded.",["cmd/dumpnodeindex/dumpnodeindex.go","internal/nodeindex/nodeindex.go:SubIndex","internal/nodeindex/nodesubindex.go","cmd/nodeindex/indexer/nodeindexer_worker.go"])
p("C100","Dumping a way index prints every way with its locations, and a part only the part",
  "After indexing a file, dumping the way index prints every way once per option, in order, with what is kept of its refs, and no failure; asked for part k of n the tool prints the ways of that part only.",
  "every input, every way index, every option, every part","Inputs and indexes are unbounded.",["cmd/dumpwayindex/dumpwayindex.go","internal/wayindex/wayindex.go:SubIndexWithScaledPass","internal/wayindex/subindex.go"])
p("C101","A command line is refused if it breaks a rule, and what is accepted can be carried out",
  "A tool starts exactly if its command line can be read, has no positional arguments, gives a profile rate only with a profile file and, for the dump tools, names a part by both options with the first below the second; otherwise it exits with status 1 and a message (0 for help) before touching any file; and a command line it accepts does not make it panic.",
  "every combination of options, every index file","The combinations of options and files are unbounded.",["cmd/dumpnodeindex/args.go:parseArgs","cmd/dumpwayindex/args.go:parseArgs","internal/system/args.go:Validate","internal/args/help.go:IsHelp","cmd/nodeindex/args.go:parseArgs"])

p("C102","A worker's status line says what the worker is doing and with which block",
  "While a worker of decompress, nodeindex, wayindex or relindex is doing something, its status line names that activity and the number of the block it has in hand; a line drawn while the worker is getting on names an activity that was current or next when the drawing began and a block that was in hand or next before it ended.",
  "every sequence of blocks, every moment at which the line may be drawn","The interleavings of the drawing with the worker are unbounded, and a test sees only a few.",["cmd/decompress/decompressor/state/state_worker.go","cmd/decompress/decompressor/widget/widget_state_worker.go","cmd/decompress/decompressor/decompressor_worker.go:Worker","cmd/nodeindex/indexer/nodeindexer_worker.go:ProcessBlock","cmd/nodeindex/indexer/widget/widget_state_worker.go","cmd/wayindex/wayindexer/wayindexer_worker.go:ProcessBlock","cmd/relindex/relindexerinit/relindexer_worker.go:ProcessBlock"])
p("C103","The status line of a rewritenodes worker names the block and the way it is at",
  "The line of a rewritenodes worker says what it is doing and with which block and, while it rewrites, which of how many ways it is at; the number of the way never exceeds the number of ways shown with it, as long as the worker stays with one block while the line is drawn.",
  "every sequence of blocks, node index and final-pass flag, every moment at which the line may be drawn","The interleavings of the drawing with the worker are unbounded.",["cmd/rewritenodes/rewriter/noderewriter_worker.go:Worker","cmd/rewritenodes/rewriter/state/state_worker.go","cmd/rewritenodes/rewriter/widget/widget_state_worker.go"])
p("C104","The status line of a tagfilter worker counts the nodes kept and dropped",
  "The line of a tagfilter worker says what it is doing and with which block, and the numbers of nodes with and without a remaining tag in the blocks it has dealt with so far; kept and dropped together are all nodes of these blocks.",
  "every sequence of blocks, every moment at which the line may be drawn","The interleavings of the drawing with the worker, and the histories of blocks, are unbounded.",["cmd/tagfilter/tagfilterer/tagfilterer_worker.go:Worker","cmd/tagfilter/tagfilterer/state/state_worker.go","cmd/tagfilter/tagfilterer/widget/widget_state_worker.go"])
p("C105","Every writer leaves its whole output, or an initial part of it",
  "The writers of decompress, relindex, rewritenodes and tagfilter leave in their output file the whole of their output, made of the messages in the order received, if every call to the operating system succeeds and every write makes progress (writes whole buffers, for relindex); whatever the operating system answers, they end, never leave anything but an initial part of that output, and if they do not panic they leave all of it.",
  "every sequence of messages, every behaviour of the operating system (short writes, failing calls)","Failures and short writes of the operating system at every call cannot be enumerated.",["cmd/decompress/decompressor/decompressor_writer.go:Writer","cmd/relindex/relindexerinit/relindexer_writer.go:Writer","cmd/rewritenodes/rewriter/noderewriter_writer.go:Writer","cmd/tagfilter/tagfilterer/tagfilterer_writer.go:Writer"])
p("C106","The status lines of the writers tell what the writer does",
  "The line of a writer of decompress, relindex, rewritenodes or tagfilter says whether it waits or writes and which block; a line drawn while the writer works is about something the writer was doing between the beginning and the end of drawing. The line of the tagfilter writer counts the blocks dropped out of the blocks received.",
  "every sequence of messages, every behaviour of the operating system, every moment at which the line may be drawn","The interleavings of the drawing with the writer, and the histories of blocks, are unbounded.",["cmd/decompress/decompressor/state/state_writer.go","cmd/relindex/relindexerinit/state/state_writer.go","cmd/rewritenodes/rewriter/noderewriter_writer.go","cmd/tagfilter/tagfilterer/state/state_writer.go","cmd/tagfilter/tagfilterer/widget/widget_state_writer.go"])
p("C107","The status lines of the index writers tell what the writer does and how far it has got",
  "The line of the writer of the node index and of the way index says whether it waits, which block it writes, whether it writes locations, how many of how many bytes of locations it has copied, or that it finishes the index. The bytes copied grow to the total, which is the size of the temporary file of locations.",
  "every sequence of messages, every behaviour of the operating system, every moment at which the line may be drawn, every moment of cancellation","The interleavings of the drawing with the writer, failures and histories of blocks are unbounded.",["cmd/nodeindex/indexer/nodeindexer_writer.go:Output","cmd/nodeindex/indexer/state/state_writer.go","cmd/nodeindex/indexer/widget/widget_state_writer.go","cmd/wayindex/wayindexer/wayindexer_writer.go:Output","cmd/wayindex/wayindexer/state/state_writer.go","cmd/wayindex/wayindexer/widget/widget_state_writer.go"])

p("C108","Percentages on the status lines are those of the numbers beside them",
  "A percentage shown with numbers a/m (0 < m < 2^53, 0 <= a <= m) is a number of tenths from 0.0 to 100.0 within half a tenth (plus one part in 2^40) of 100*a/m; it never decreases as a grows; it is 0.0 at the start, and 100.0 at the end and only there. There is always a number.",
  "all pairs of numbers a <= m below 2^53",
  "floating point division, multiplication and decimal formatting for every pair of 53-bit numbers",
  ["internal/ui/widget/widget_process_state.go:update","cmd/nodeindex/indexer/widget/widget_state_writer.go","cmd/wayindex/wayindexer/widget/widget_state_writer.go"])
p("C109","The line about the input file says what is done with it and how far it is",
  "Whenever the display is updated during a run over a file of less than 2^53 bytes, the line about the file is one of: initializing, loading block a/m p%, sending block a/m p%, shutting down; it names the tool and the file; m is the size of the file, a the position at some moment of the update, p their percentage; the word is true of the moment at which the update began; later lines never go back; 'shutting down' means that no more blocks are sent and, unless cancelled, that all were. On screen the line is padded to the width with the share a/m of it highlighted. The line about the pass reads 'Pass p/n', counted from 1, likewise.",
  "all files, cancellations, moments of the three reads of an update, widths of the view, tool and file names",
  "the display reads the record while another goroutine changes it; all interleavings and all file contents",
  ["internal/ui/widget/widget_process_state.go:update","internal/ui/widget/widget_pass_progress.go:update","internal/pbf/process.go:processFileWork","internal/ui/format.go:MarkupAsProgress"])
p("C110","The user interface ends with the work, and Ctrl-C cancels it",
  "A tool that shows widgets some times and then stops the user interface gets back from stopping it: there is no deadlock between the ticks, the event loop and Stop, however full the queue of events is. After Stop has returned nothing is drawn or cancelled any more. The work is cancelled exactly if Ctrl-C has been taken from the events, the program panics exactly if Ctrl-A has been; Stop does not panic. What is shown is always the complete set of widgets of one call, the last one made.",
  "all interleavings of the caller, the ticking goroutine, the goroutines posting events, the event loop and the keyboard; all capacities of the event queue; all sequences of calls",
  "deadlocks and orders of events depend on the schedule",
  ["internal/ui/ui.go:NewUI","internal/ui/ui.go:HandleEvent","internal/ui/ui.go:ReplaceWidgets","internal/ui/ui.go:Stop"])

p("C111","Which blocks can be written, and how large they become",
"Writing a block appends a number of bytes that can be computed from its contents (one byte per started seven bits of each number, changes between neighbours for ids, refs and coordinates, three to five bytes of framing per section), and it succeeds exactly when each section fits its frame: 16 KiB per way, 2 MiB per relation, 256 MiB per dense section, group and string table. Any other block makes the writer panic instead of writing something.",
"every block, with any number of groups, sections, tags and refs, and every buffer written to",
"The limits are reached only by particular combinations of values; the claim is an equivalence over all blocks.",
["internal/t/primitive_block.go:Write","internal/t/primitive_group.go:Write","internal/pb/embed.go:Embed16384"])

p("C112","The memory limit of a rewrite",
"Given a memory limit, the node rewriter makes the least number of passes for which an equal share of the index's locations (8 bytes each) is below the limit, and in every pass the ranges looked at, but for the last one, are below it too.",
"every index, with any number of ranges and locations, every limit, every pass",
"How the ranges fall into the passes depends on every count in the index; the claim is an arithmetic bound over all of them.",
["cmd/rewritenodes/rewritenodes.go:main","internal/nodeindex/nodeindex.go:SubIndex","internal/nodeindex/nodeindex.go:LocationCount"])

def main():
    here = os.path.dirname(os.path.abspath(__file__))
    with open(os.path.join(here, "..", "properties.jsonl"), "w") as f:
        for x in P:
            f.write(json.dumps(x) + "\n")
if __name__ == "__main__":
    main()
