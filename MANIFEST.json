{
 "claims": [
  {
   "property": "C01",
   "status": "proved",
   "theorems": [
    "C01_varint_roundtrip"
   ],
   "note": ""
  },
  {
   "property": "C02",
   "status": "proved",
   "theorems": [
    "C02_varint_canonical",
    "C02_varint_canonical_unique"
   ],
   "note": ""
  },
  {
   "property": "C03",
   "status": "proved",
   "theorems": [
    "C03_decode_success",
    "C03_decode_truncated",
    "C03_decode_overflow",
    "C03_decode_outcomes"
   ],
   "note": ""
  },
  {
   "property": "C04",
   "status": "proved",
   "theorems": [
    "C04_zigzag"
   ],
   "note": ""
  },
  {
   "property": "C05",
   "status": "proved",
   "theorems": [
    "C05_scalar_roundtrip",
    "C05_narrowing"
   ],
   "note": ""
  },
  {
   "property": "C06",
   "status": "proved",
   "theorems": [
    "C06_packed_roundtrip",
    "C06_packed_in_bounds",
    "C06_signed_packed",
    "C06_s32_deltas"
   ],
   "note": ""
  },
  {
   "property": "C07",
   "status": "proved",
   "theorems": [
    "C07_delta_zero",
    "C07_delta_zero_roundtrip",
    "C07_terminates"
   ],
   "note": ""
  },
  {
   "property": "C08",
   "status": "proved",
   "theorems": [
    "C08_bytes_roundtrip"
   ],
   "note": ""
  },
  {
   "property": "C09",
   "status": "proved",
   "theorems": [
    "C09_embed",
    "C09_embed_read"
   ],
   "note": ""
  },
  {
   "property": "C10",
   "status": "partial",
   "theorems": [
    "C10_capacity_partial",
    "C10_isolated_partial",
    "C10_isolated_accepted",
    "C10_nested_overread_refuted",
    "C10_exact_extent_partial"
   ],
   "note": "C10_capacity_partial: C10, with any bytes [e] behind the message: whenever a reader accepts a message, either the message is sound (and then ways, relations, dense sections, string tables and blob headers are read exactly as if nothing lay behind it), or it is sound up to one last field that claims more bytes than are left. So the only way to read a neighbour's bytes is through the last field of a message. Missing: rejection in that case (see the refutation); lengths of 2^63 and more in ways, relations, dense sections and groups, which may be negative as Go ints. | C10_isolated_partial: C10, whole blocks and groups: what is read from any slice (with or without bytes behind it) is what readers that keep to the extent of every nested message would read, unless some nested message overruns its own extent with its last field. Missing: rejection in that case (see the refutation), and lengths of 2^63 and more. | C10_nested_overread_refuted: C10 is false of the code: here the nested way declares 2 bytes, inside which a refs field claims 3 bytes; the reader takes them from the enclosing group and returns refs 21, 20, 20 instead of rejecting the input. (Read on its own the same way is rejected.) | C10_exact_extent_partial: C10, the part that holds: when nothing lies beyond the buffer (capacity equal to length), a string table, blob or blob header that is accepted consists exactly of well-formed items, each inner length covering bytes of the buffer; a way, relation or dense section consists of well-formed items followed at most by one skipped field that claims more bytes than are left. Missing: readers handed a slice with spare capacity, i.e. every nested message (see the refutation), and blobs and groups with huge (negative) lengths."
  },
  {
   "property": "C11",
   "status": "partial",
   "theorems": [
    "C11_exact",
    "C11_exact_leaves",
    "C11_fuel_adequate",
    "C11_skip_loops_refuted",
    "C11_readers_terminate_partial"
   ],
   "note": "C11_exact: C11, exactly: a reader of a message fails to return if and only if, following the items from the start of the message, it comes to an item at which it comes back to the same place (so that it goes round for ever), or to a nested message whose reader fails to return. | C11_readers_terminate_partial: C11, the part that holds: blob, blob header and string table readers return or panic on every input; the others do so when no varint of the buffer (or of the memory up to its capacity) has a value of 2^63 or more, i.e. when no length is negative."
  },
  {
   "property": "C12",
   "status": "proved",
   "theorems": [
    "C12_beyond_end_irrelevant"
   ],
   "note": ""
  },
  {
   "property": "C13",
   "status": "proved",
   "theorems": [
    "C13_string_table_roundtrip"
   ],
   "note": ""
  },
  {
   "property": "C14",
   "status": "proved",
   "theorems": [
    "C14_dense_roundtrip"
   ],
   "note": ""
  },
  {
   "property": "C15",
   "status": "proved",
   "theorems": [
    "C15_way_roundtrip"
   ],
   "note": ""
  },
  {
   "property": "C16",
   "status": "partial",
   "theorems": [
    "C16_exact",
    "C16_any_refs",
    "C16_way_too_large_refuted",
    "C16_way_within_limit_partial"
   ],
   "note": "C16_exact: C16, exactly: a group can be written if and only if every way of it needs fewer than 16384 bytes, every relation fewer than 2097152 (and its keys and its values fewer than 16384 each), the dense section fewer than 268435456 (and its ids, latitudes and longitudes fewer than 2097152 each); otherwise the writer panics."
  },
  {
   "property": "C17",
   "status": "proved",
   "theorems": [
    "C17_relation_roundtrip"
   ],
   "note": ""
  },
  {
   "property": "C18",
   "status": "proved",
   "theorems": [
    "C18_group_roundtrip"
   ],
   "note": ""
  },
  {
   "property": "C19",
   "status": "proved",
   "theorems": [
    "C19_block_roundtrip"
   ],
   "note": ""
  },
  {
   "property": "C20",
   "status": "proved",
   "theorems": [
    "C20_group_sections_preserved",
    "C20_block_sections_preserved"
   ],
   "note": ""
  },
  {
   "property": "C21",
   "status": "proved",
   "theorems": [
    "C21_blob_header_roundtrip",
    "C21_blob_roundtrip",
    "C21_blob_writer_roundtrip"
   ],
   "note": ""
  },
  {
   "property": "C22",
   "status": "proved",
   "theorems": [
    "C22_dense_tags",
    "C22_dense_no_tags"
   ],
   "note": ""
  },
  {
   "property": "C23",
   "status": "proved",
   "theorems": [
    "C23_index_bijection"
   ],
   "note": ""
  },
  {
   "property": "C24",
   "status": "partial",
   "theorems": [
    "C24_order",
    "C24_frequency_order_partial",
    "C24_frequency_order_refuted",
    "C24_exact"
   ],
   "note": "C24_frequency_order_partial: C24 as stated holds when the empty string is never added explicitly: the empty string first, then by decreasing number of additions, ties by bytes. | C24_frequency_order_refuted: C24 fails when the empty string is added: its counter wraps around from 2^32-1 to 0 and it is sorted last although it was added most often. | C24_exact: C24, exactly: the table is the empty string and then the others by decreasing number of additions, ties by bytes, if and only if the empty string was never added, or was added more often than every other string."
  },
  {
   "property": "C25",
   "status": "proved",
   "theorems": [
    "C25_order_independent"
   ],
   "note": ""
  },
  {
   "property": "C26",
   "status": "proved",
   "theorems": [
    "C26_ways_relations"
   ],
   "note": ""
  },
  {
   "property": "C27",
   "status": "partial",
   "theorems": [
    "C27_nodes_exact",
    "C27_nodes_partial",
    "C27_nodes_refuted"
   ],
   "note": "C27_nodes_exact: C27, exactly: the nodes come back as they should if and only if no node has a tag whose key is the string the block's table puts first. (The first string has index 0, which in the nodes' key/value list means \"next node\".) | C27_nodes_partial: C27, in particular when no tag key, tag value or role of the block is the empty string: then the empty string is the first. | C27_nodes_refuted: C27 fails when an empty string occurs anywhere in the block: here one relation has an empty role (a common case) and the node loses its only tag."
  },
  {
   "property": "C28",
   "status": "proved",
   "theorems": [
    "C28_quantisation"
   ],
   "note": ""
  },
  {
   "property": "C29",
   "status": "partial",
   "theorems": [
    "C29_rewrite_ways_relations",
    "C29_rewrite_nodes_exact",
    "C29_rewrite_nodes_partial"
   ],
   "note": "C29_rewrite_nodes_exact: C29, nodes: they come back through the bytes if and only if no node has a tag whose key is the string the block's table puts first (see C27_nodes_refuted). | C29_rewrite_nodes_partial: C29, nodes, in particular when no tag key, tag value or role is the empty string."
  },
  {
   "property": "C30",
   "status": "proved",
   "theorems": [
    "C30_rule"
   ],
   "note": ""
  },
  {
   "property": "C31",
   "status": "partial",
   "theorems": [
    "C31_other_blocks",
    "C31_filter",
    "C31_nodes_exact",
    "C31_nodes_partial"
   ],
   "note": "C31_nodes_exact: C31, the nodes of the block sent: they are the interesting nodes, coordinates moved to a multiple of 100, if and only if no interesting node has a tag whose key is the string the new block's table puts first (see C27_nodes_refuted for what happens otherwise). | C31_nodes_partial: C31, in particular when no empty string is left among the strings of the filtered entities."
  },
  {
   "property": "C32",
   "status": "proved",
   "theorems": [
    "C32_one_message_each"
   ],
   "note": ""
  },
  {
   "property": "C33",
   "status": "partial",
   "theorems": [
    "C33_nodes",
    "C33_blocks_partial",
    "C33_blocks_refuted"
   ],
   "note": "C33_blocks_partial: C33, blocks: running the filter on the block it sent gives the same block, byte for byte, when no interesting node has a tag whose key is the string the new block's table puts first."
  },
  {
   "property": "C34",
   "status": "proved",
   "theorems": [
    "C34_split",
    "C34_rewriter_writer",
    "C34_tagfilter_writer"
   ],
   "note": ""
  },
  {
   "property": "C35",
   "status": "proved",
   "theorems": [
    "C35_total_and_exact",
    "C35_truncation",
    "C35_unknown_type"
   ],
   "note": "C35_total_and_exact: C35. For every file: splitting it terminates; if it does not panic, the blocks account for every byte of the file, in order, and have known types."
  },
  {
   "property": "C36",
   "status": "proved",
   "theorems": [
    "C36_prompt",
    "C36_in_order",
    "C36_missing"
   ],
   "note": ""
  },
  {
   "property": "C37",
   "status": "proved",
   "theorems": [
    "C37_prefix",
    "C37_complete",
    "C37_no_abort",
    "C37_file_indexed",
    "C37_keeps",
    "C37_tools"
   ],
   "note": ""
  },
  {
   "property": "C38",
   "status": "proved",
   "theorems": [
    "C38_bounded",
    "C38_progress",
    "C38_maximal",
    "C38_completes",
    "C38_no_workers"
   ],
   "note": ""
  },
  {
   "property": "C39",
   "status": "proved",
   "theorems": [
    "C39_prefix",
    "C39_shutdown"
   ],
   "note": ""
  },
  {
   "property": "C40",
   "status": "proved",
   "theorems": [
    "C40_once",
    "C40_always"
   ],
   "note": ""
  },
  {
   "property": "C41",
   "status": "proved",
   "theorems": [
    "C41_layout",
    "C41_surjective"
   ],
   "note": ""
  },
  {
   "property": "C42",
   "status": "proved",
   "theorems": [
    "C42_location"
   ],
   "note": ""
  },
  {
   "property": "C43",
   "status": "partial",
   "theorems": [
    "C43_layout_partial",
    "C43_documented_refuted",
    "C43_exact"
   ],
   "note": "C43_layout_partial: C43. The stored location has the longitude in its even bits and, in its odd bits, the low 31 bits of the latitude with bit 31 set: ENCODING.md without its shift. | C43_documented_refuted: C43 as documented is false of the code: latitude 0.0000002 is stored differently. | C43_exact: C43, exactly: for valid latitudes, the stored location is that of ENCODING.md if and only if the latitude is 0 or one unit (0.0000001 degrees) south of it."
  },
  {
   "property": "C44",
   "status": "partial",
   "theorems": [
    "C44_roundtrip_partial",
    "C44_boundary_refuted",
    "C44_exact"
   ],
   "note": "C44_roundtrip_partial: C44. A count below 2^24 and an offset: packed and read back exactly, or refused (exactly when the offset needs more than 40 bits). A count above 2^24 is refused. | C44_boundary_refuted: C44 is false of the code at one count: 2^24 is accepted, and what is read back is the count 0 and an odd offset. | C44_exact: C44, exactly: for every count and every offset of 64 bits, packing refuses or both are read back as they were, except for the count 2^24 with an offset below 2^40."
  },
  {
   "property": "C45",
   "status": "proved",
   "theorems": [
    "C45_lookup"
   ],
   "note": ""
  },
  {
   "property": "C46",
   "status": "proved",
   "theorems": [
    "C46_roundtrip",
    "C46_elements"
   ],
   "note": ""
  },
  {
   "property": "C47",
   "status": "partial",
   "theorems": [
    "C47_exact",
    "C47_every_node_partial",
    "C47_first_ids_refuted"
   ],
   "note": "C47_exact: C47, exactly: the index made of any input with ascending node ids (fewer than 2^23 nodes in a block and 2^39 in all) opens, and finds every node at its own location whatever the hint, if and only if the input has no node 0 and no node 1. | C47_every_node_partial: C47. After indexing any input with ascending node ids, all at least 2, with fewer than 2^23 nodes in a block and 2^39 in all, the file opens and every node is found, whatever the hint, at the location computed from its coordinates; no other id is found. | C47_first_ids_refuted: C47 is false of the code for an input starting with node 1 (or 0): of the nodes 1 and 5, indexed without any problem, neither is found at its location."
  },
  {
   "property": "C48",
   "status": "partial",
   "theorems": [
    "C48_consecutive_partial",
    "C48_covers_iff_partial",
    "C48_single_pass",
    "C48_coverage_refuted",
    "C48_divides_exact"
   ],
   "note": "C48_consecutive_partial: C48, part: if no pass panics, the passes are consecutive and do not overlap, and start with the first range: together they are an initial part of the index. | C48_covers_iff_partial: C48: exactly when no pass panics and the passes cover the index. [l] is the last range, [total rs] the number of locations before it; with size = locations / passes (rounded down), the last range must begin at or after the start of the last pass and before the end of the last pass. | C48_coverage_refuted: C48 is false of the code: ten ranges of one location in three passes: the last range is in none; two ranges of which the second has the most locations, in three passes: the last pass panics; and an empty index: the only pass panics. | C48_divides_exact: C48, exactly: the index can be divided into [n] sub-indexes if and only if there are at least as many locations as passes and the last range begins at or after the start of the last pass."
  },
  {
   "property": "C49",
   "status": "proved",
   "theorems": [
    "C49_unfinished_refused"
   ],
   "note": ""
  },
  {
   "property": "C50",
   "status": "partial",
   "theorems": [
    "C50_cancelled_opens_refuted",
    "C50_locations_lost_refuted",
    "C50_never_wrong_partial"
   ],
   "note": "C50_cancelled_opens_refuted: C50 is false of the code: whenever and however often the run is found cancelled, the file it leaves opens as an index with all ranges, whose locations are an initial part of those it should have. | C50_locations_lost_refuted: Cancelled before the first location is copied: the index opens, and has no locations. | C50_never_wrong_partial: C50, what holds instead: whenever and however often the run is cancelled, an index made from an input as in C47 never gives a wrong location: what a lookup finds in any pass is the location of the node with that id. (It may miss nodes, or panic.)"
  },
  {
   "property": "C51",
   "status": "proved",
   "theorems": [
    "C51_no_mismatch",
    "C51_reports",
    "C51_lines"
   ],
   "note": ""
  },
  {
   "property": "C52",
   "status": "proved",
   "theorems": [
    "C52_other_blocks",
    "C52_rewrite"
   ],
   "note": ""
  },
  {
   "property": "C53",
   "status": "partial",
   "theorems": [
    "C53_passes_partial",
    "C53_lost_ref_refuted",
    "C53_exact"
   ],
   "note": "C53_passes_partial: C53, the files for which it holds. If the passes cover the index (see C48 for exactly when they do), all its locations are negative (as the indexer stores them) or absent, every block can be decoded, and [n] passes succeed, each writing less than 2^63 bytes, then a single pass succeeds too and gives the same file, byte for byte. | C53_lost_ref_refuted: C53 is false of the code when the passes do not cover the index: with the same index in three passes the ref 90 is left as it is, and only there the result differs. | C53_exact: C53, exactly (all locations negative or absent, as the indexer stores them, and every block decodable): if [n] passes succeed, and one pass succeeds, their files are the same if and only if every ref of a way that one pass replaces is in a range of the index that begins before location n * (number of locations / n)."
  },
  {
   "property": "C54",
   "status": "proved",
   "theorems": [
    "C54_files",
    "C54_names",
    "C54_ends_exact"
   ],
   "note": "C54_ends_exact: C54, exactly. The rewriter ends normally if and only if the memory limit gives a number of passes, the input exists and each of that many passes over it does."
  },
  {
   "property": "C55",
   "status": "partial",
   "theorems": [
    "C55_packing_partial",
    "C55_rejected",
    "C55_limits_refuted",
    "C55_exact"
   ],
   "note": "C55_packing_partial: C55, for ids below 2^31 and offsets below 2^33. | C55_limits_refuted: C55 is false of the code at the limits and for negative arguments: way 2^31 is stored as way 0, offset 2^33 of way 6 as offset 0 of way 7, way -1 as way 2^31 - 1, and offset -1 of way 6 as the last offset of way 2^31 - 1. | C55_exact: C55, exactly: for every way id and offset of 64 bits, signed, packing refuses or both are read back as they were, if and only if one is above its limit or both are in range: the id from 0 up to (not including) 2^31, the offset from 0 up to (not including) 2^33."
  },
  {
   "property": "C56",
   "status": "proved",
   "theorems": [
    "C56_blocks",
    "C56_works"
   ],
   "note": ""
  },
  {
   "property": "C57",
   "status": "proved",
   "theorems": [
    "C57_lookup",
    "C57_every_way"
   ],
   "note": ""
  },
  {
   "property": "C58",
   "status": "partial",
   "theorems": [
    "C58_pass",
    "C58_found_partial",
    "C58_all_found_partial",
    "C58_lost_way_refuted",
    "C58_panics_refuted"
   ],
   "note": "C58_found_partial: C58. No pass panics unless there are more passes than bytes; and a way is found in some pass exactly if it starts before n * (length / n). | C58_all_found_partial: C58. In particular with at most 2^shift passes every way is found in some pass. | C58_lost_way_refuted: C58 is false of the code: in nine passes over these ten ways the last one is found in none, though no pass panics. | C58_panics_refuted: C58 is false of the code: an index without ways, or with fewer bytes than passes, panics."
  },
  {
   "property": "C59",
   "status": "proved",
   "theorems": [
    "C59_roundtrip"
   ],
   "note": ""
  },
  {
   "property": "C60",
   "status": "partial",
   "theorems": [
    "C60_unfinished_partial",
    "C60_opens_refuted"
   ],
   "note": "C60_unfinished_partial: C60, as far as it holds: the file as it is at any point before the final header write is refused, or opens as an index without entries from which no sub-index can be made: no lookup can be done with it. | C60_opens_refuted: C60 is false of the code: a run stopped after all entries and locations were written (its copy of the locations fails) leaves a file that opens without an error."
  },
  {
   "property": "C61",
   "status": "proved",
   "theorems": [
    "C61_listing",
    "C61_from_files"
   ],
   "note": ""
  },
  {
   "property": "C62",
   "status": "partial",
   "theorems": [
    "C62_passes_partial",
    "C62_same_partial",
    "C62_passes_refuted",
    "C62_exact"
   ],
   "note": "C62_passes_partial: C62, what holds: the relation index made in [n] passes lists, in file order, every relation with its ways and their locations, except that ways whose locations start at or after n * (length of the locations / n) are listed without locations. The files of the passes are gone, all other files are as they were. | C62_same_partial: C62, what holds of any index with aligned locations: at most 2^shift passes give the same as one. | C62_passes_refuted: C62 is false of the code: in nine passes over this index, way 10 is listed without locations; in 81 passes, more than there are bytes of locations, the run panics; with no passes the output is not made and the file of the first step is left. | C62_exact: C62, exactly: the relation index made in [n] passes is that made in one pass if and only if every way of a relation that has locations in the way index starts before n * (length of the locations / n). (No pass panics if there are not more passes than bytes of locations.)"
  },
  {
   "property": "C63",
   "status": "partial",
   "theorems": [
    "C63_works_partial",
    "C63_no_relations_refuted",
    "C63_ways_refuted",
    "C63_exact"
   ],
   "note": "C63_works_partial: C63, for which inputs it holds: at least one relation, way ids positive, as many member types as members, a way index with a way, and passes for which C62 finds no panic. | C63_no_relations_refuted: C63 is false of the code: every input without relations makes it panic, whatever the index. | C63_ways_refuted: C63 is false of the code: a relation with the ways 0 and 7 makes it panic; of a relation 5 with the way -3 and a relation 1 without ways it lists only the first, with a location that way 3 does not have; a relation with more members than member types makes it panic. | C63_exact: C63, exactly, for sound relations: with a way index as the indexer makes it (the first way's locations first), the tool finishes if and only if there is a relation, the way index has a way, and there are not more passes than bytes of locations."
  },
  {
   "property": "C64",
   "status": "proved",
   "theorems": [
    "C64_borrows",
    "C64_double_return_shares"
   ],
   "note": ""
  },
  {
   "property": "C65",
   "status": "proved",
   "theorems": [
    "C65_decompress",
    "C65_malformed",
    "C65_which_data"
   ],
   "note": ""
  },
  {
   "property": "C66",
   "status": "partial",
   "theorems": [
    "C66_exact",
    "C66_same_contents_partial",
    "C66_empty_payload_refuted"
   ],
   "note": "C66_exact: C66, exactly: every file whose payloads are below 2^31-20 bytes is decompressed; the output has the same sequence of types and payloads if and only if none of them is empty, and otherwise cannot be read as a sequence of payloads at all, in whatever environment. | C66_same_contents_partial: C66, for input files none of whose payloads is empty (and each below 2^31-20 bytes): the output is a file with the same sequence of types and payloads, in whatever environment it is read. | C66_empty_payload_refuted: C66 and C67 fail for an empty payload: the output blob has neither raw nor compressed data, so nothing can read it and decompressing it again panics."
  },
  {
   "property": "C67",
   "status": "partial",
   "theorems": [
    "C67_exact",
    "C67_idempotent_partial",
    "C67_empty_payload_refuted"
   ],
   "note": "C67_exact: C67, exactly: decompressing the output again reproduces it byte for byte if and only if no payload is empty, and panics otherwise, in whatever environment. | C67_idempotent_partial: C67, under the same condition: decompressing the output again reproduces it byte for byte, in whatever environment."
  },
  {
   "property": "C68",
   "status": "proved",
   "theorems": [
    "C68_write",
    "C68_write_words"
   ],
   "note": ""
  },
  {
   "property": "C69",
   "status": "proved",
   "theorems": [
    "C69_copy"
   ],
   "note": ""
  },
  {
   "property": "C70",
   "status": "proved",
   "theorems": [
    "C70_words_to_bytes",
    "C70_roundtrip",
    "C70_bytes_to_words",
    "C70_bytes_to_pairs"
   ],
   "note": ""
  },
  {
   "property": "C71",
   "status": "proved",
   "theorems": [
    "C71_max",
    "C71_bounded",
    "C71_progress"
   ],
   "note": ""
  },
  {
   "property": "C72",
   "status": "proved",
   "theorems": [
    "C72_entitycount",
    "C72_blockcount"
   ],
   "note": ""
  },
  {
   "property": "C73",
   "status": "proved",
   "theorems": [
    "C73_listed",
    "C73_version",
    "C73_all_gone"
   ],
   "note": ""
  },
  {
   "property": "C74",
   "status": "proved",
   "theorems": [
    "C74_fresh",
    "C74_current",
    "C74_keeps"
   ],
   "note": ""
  },
  {
   "property": "C75",
   "status": "partial",
   "theorems": [
    "C75_markup_partial",
    "C75_refuted",
    "C75_exact"
   ],
   "note": "C75_markup_partial: C75, partial. For every text, width and number of highlighted characters: if the highlighted part is shorter than the line, the padded text is shown literally with this part in standout style. If the whole line would be highlighted (or the width is 0, or the progress is not a number), nothing is, and the text must not contain percent signs. Missing: the unescaped cases, see C75_refuted. The characters are single bytes. | C75_refuted: C75 is false of the code: \"at 100%\" on a line of 8 characters at full progress loses its percent sign and a space. | C75_exact: C75, exactly: for every text, width and number of highlighted characters, the characters shown are those of the padded text (for width 0, of the text) if and only if part of the line and not all of it is to be highlighted (counting the empty part), or the text has no percent sign."
  },
  {
   "property": "C76",
   "status": "partial",
   "theorems": [
    "C76_cancelled_opens_refuted",
    "C76_lookup_panics_refuted",
    "C76_never_wrong_partial"
   ],
   "note": "C76_cancelled_opens_refuted: C76 is false of the code: however the run is cancelled, the file opens as an index with all entries, whose locations are an initial part of those it should have. | C76_lookup_panics_refuted: Cancelled before the first byte is copied: a sub-index panics; cancelled in the middle: the last way is in the index, and looking it up panics. | C76_never_wrong_partial: C76, what holds instead: however the run is cancelled, an index made from an input as in C57 never gives wrong locations: what a lookup finds in any pass is what is kept of the refs of the way with that id. (It may miss ways, or panic.)"
  },
  {
   "property": "C77",
   "status": "proved",
   "theorems": [
    "C77_dump"
   ],
   "note": ""
  },
  {
   "property": "C78",
   "status": "proved",
   "theorems": [
    "C78_block",
    "C78_all"
   ],
   "note": ""
  },
  {
   "property": "C79",
   "status": "partial",
   "theorems": [
    "C79_prefix_partial",
    "C79_ends_refuted",
    "C79_exact",
    "C79_beginning"
   ],
   "note": "C79_prefix_partial: C79, the files for which it holds (as C53). A run that was cancelled at any moment, or not at all, by any schedule of any number of workers and in any number of passes, if it ends normally, leaves an output file that is the result of one whole pass with the whole index over the file cut after some blob; if it was not cancelled, over the whole file. So no block in it is missing refs that only a later pass would have replaced. The pass files are gone and no other file was changed. | C79_ends_refuted: A cancelled run need not end normally: when the first of two passes was cancelled before its first block, it leaves an empty file, which the second pass cannot map. | C79_exact: C79, exactly: whatever the number of passes. A run that was cancelled at any moment, or not at all, by any schedule of any number of workers, if it ends normally, leaves an output file that is what the same number of passes, not cancelled, make of the file cut after some blob; if it was not cancelled, of the whole file. The pass files are gone and no other file was changed. Its hypotheses: C79_ex."
  },
  {
   "property": "C80",
   "status": "partial",
   "theorems": [
    "C80_decompress_partial",
    "C80_relindex",
    "C80_decompress_exact"
   ],
   "note": "C80_decompress_partial: C80, decompression, for the files of C66. Whenever and however often it was cancelled, whatever the schedule and the number of workers: what a run that has ended has written is a file with the same types and payloads as the first [m] blobs of the input; all of them if it was not cancelled. | C80_decompress_exact: C80, decompression, exactly. Whenever and however often it was cancelled, whatever the schedule and the number of workers: what a run that has ended has written is a file with the types and payloads of the first [m] blobs of the input (all, if it was not cancelled) if and only if none of these is empty, and otherwise no file with payloads at all."
  },
  {
   "property": "C81",
   "status": "proved",
   "theorems": [
    "C81_file"
   ],
   "note": ""
  },
  {
   "property": "C82",
   "status": "partial",
   "theorems": [
    "C82_read_elements_partial",
    "C82_read_block_partial",
    "C82_read_blob_partial",
    "C82_read_refuted"
   ],
   "note": "C82_read_elements_partial: Reading a way, a relation, dense nodes or a string table gives the data that the schema defines, whatever the order of the fields, the repetition of scalar fields and the width of the varints. Partial: known fields only, packed, in one piece ([plain]). | C82_read_block_partial: The same for primitive groups and blocks, for every choice of sections to skip. | C82_read_blob_partial: The same for the blob header and the blob of fileformat.proto. | C82_read_refuted: What [plain] excludes is indeed not read as the schema says. A way whose packed refs come in two pieces loses the first; unpacked refs, a field of a later version of the schema (the lat/lon of a way), non-dense nodes, the index data of a blob header and other compressions make the reader panic."
  },
  {
   "property": "C83",
   "status": "proved",
   "theorems": [
    "C83_write_elements",
    "C83_write_block",
    "C83_write_blob"
   ],
   "note": ""
  },
  {
   "property": "C84",
   "status": "partial",
   "theorems": [
    "C84_rewritten_file_partial",
    "C84_exact"
   ],
   "note": "C84_rewritten_file_partial: C84. If the rewriter finishes with an OSM file and a node index whose locations are negative or absent, in passes that cover the index, the output is an OSM file with the same blocks in the same order, in which only the refs of ways have changed: into what the index has for them. | C84_exact: C84, exactly. With any number of passes: if the rewriter finishes, the output is an OSM file with the same blocks in which only refs of ways have changed: those in a range that begins before location n * (number of locations / n), into what the index has for them."
  },
  {
   "property": "C85",
   "status": "partial",
   "theorems": [
    "C85_end_to_end_partial",
    "C85_exact"
   ],
   "note": "C85_end_to_end_partial: C85. From the OSM file to the relation index. Index the nodes of the file; rewrite it with that index, in passes that cover it; index the ways of the result; index the relations of either file, in at most 2^a passes. If the rewriter finishes, the relation index lists every relation of the OSM file, in order, with its ways, and for each of them what is kept of the locations of its nodes; a node that is not in the file is listed by its id. | C85_exact: C85, for every number of passes of the rewriter. Index the nodes of an OSM file; rewrite it with that index in [n] passes; index the ways of the result; index the relations. If the rewriter finishes, the relation index lists every relation with its ways and what is kept of the locations of their nodes, for the first [k] nodes of the file: all but fewer than [n], which are listed by their ids as if they were not in the file."
  },
  {
   "property": "C86",
   "status": "proved",
   "theorems": [
    "C86_rewriter_finishes",
    "C86_chain",
    "C86_chain_exact"
   ],
   "note": "C86_chain_exact: C86, the whole chain with any memory limit for which the index can be divided (C48_divides_exact): every step completes, and the relation index lists what C85_exact says."
  },
  {
   "property": "C87",
   "status": "partial",
   "theorems": [
    "C87_decompressed_file_partial",
    "C87_decompressed_file_exact"
   ],
   "note": "C87_decompressed_file_partial: C87, for files none of whose contents is empty (see C66_empty_payload_refuted). Whatever the schedule, the number of workers and the moment of a cancellation: what a decompression of an OSM file has written when it ends is an OSM file with the first [m] blocks, all of them if it was not cancelled, whoever reads it; and it is within the limits of the tool chain if the input was. | C87_decompressed_file_exact: C87, exactly. Whatever the schedule, the number of workers and the moment of a cancellation: what a decompression of an OSM file has written when it ends is an OSM file with the first [m] blocks (all of them if it was not cancelled), whoever reads it, if and only if none of these blocks has an empty content."
  },
  {
   "property": "C88",
   "status": "partial",
   "theorems": [
    "C88_filtered_file_exact",
    "C88_no_empty_strings_partial"
   ],
   "note": "C88_filtered_file_exact: C88. Whatever the schedule, the number of workers and the moment of a cancellation: what a run of the tag filter over an OSM file has written when it ends is an OSM file, whoever reads it. Its elements are those of the first [m] blocks of the input (all, if the run was not cancelled), filtered; ways, relations and the places of nodes are all right; the tags of nodes are right in just those blocks in which no node has a tag whose key is the first string of the block's table. | C88_no_empty_strings_partial: C88, for files without empty tag keys, tag values and roles: the output's elements are the input's, filtered."
  },
  {
   "property": "C89",
   "status": "partial",
   "theorems": [
    "C89_filter_keeps",
    "C89_filtered_chain_partial",
    "C89_filtered_chain_exact"
   ],
   "note": "C89_filtered_chain_partial: C89, the tool chain of C85 with the filter after the rewriter: the way index is made from the filtered file, the relation index from any of the three files, and lists the same as without the filter. | C89_filtered_chain_exact: C89, exactly: the tool chain with the filter after the rewriter, for every number of passes. The relation index lists what it lists without the filter (C85_exact): all nodes but fewer than [n], the last ones, are located."
  },
  {
   "property": "C90",
   "status": "partial",
   "theorems": [
    "C90_untouched",
    "C90_rerun",
    "C90_output_partial",
    "C90_output_exact"
   ],
   "note": "C90_output_partial: C90, the files for which C53 holds. However often and whenever runs of the rewriter ended: the output file is as it was before, or no tool can read it, or it is the result of one whole pass with the whole index over the file cut after some blob. There is no other way for it to be incomplete. | C90_output_exact: C90, whatever the number of passes. However often and whenever runs of the rewriter ended: the output file is as it was before, or no tool can read it, or it is what the passes make of the file cut after some blob. There is no other way for it to be incomplete. Its hypotheses: C90_ex."
  },
  {
   "property": "C91",
   "status": "partial",
   "theorems": [
    "C91_tagfilter",
    "C91_tagfilter_osm",
    "C91_decompress_partial",
    "C91_decompress_exact"
   ],
   "note": "C91_decompress_partial: C91, the decompression, for files without empty contents (as C87). | C91_decompress_exact: C91, decompression, exactly. However far a run got, and however much of its output was written: what is there cannot be split into blobs, or is a file with the types and payloads of the first [m] blobs of the input if and only if none of these is empty, and otherwise no file with payloads at all."
  },
  {
   "property": "C92",
   "status": "proved",
   "theorems": [
    "C92_untouched",
    "C92_rerun",
    "C92_output"
   ],
   "note": ""
  },
  {
   "property": "C93",
   "status": "partial",
   "theorems": [
    "C93_same_partial",
    "C93_never_returns_refuted",
    "C93_out_of_range_refuted",
    "C93_slot_of_two"
   ],
   "note": "C93_same_partial: C93. Timing the lookups with a factor of 1.125 or more (or a senseless one) changes no result: whatever the time stamps read before and after, a lookup returns what it returns without timing, panics only if that one does, and is counted in the table once if its time is more than one cycle and less than two seconds. (Partial: not for factors between 0 and 1.125, below.) | C93_never_returns_refuted: C93. Timing with a factor from 0 to 1: no lookup that takes more than a cycle (and less than two seconds) ever returns. | C93_out_of_range_refuted: C93. Timing with the factor 17/16: a lookup that takes a second (3300000000 cycles) panics."
  },
  {
   "property": "C94",
   "status": "proved",
   "theorems": [
    "C94_node_counter",
    "C94_way_counter",
    "C94_sums",
    "C94_rewriter_lookups",
    "C94_pass"
   ],
   "note": ""
  },
  {
   "property": "C95",
   "status": "partial",
   "theorems": [
    "C95_never_wrong_partial",
    "C95_torn_header_refuted"
   ],
   "note": "C95_never_wrong_partial: C95. However the run ends - any write cut short or failing, any other call failing, cancelled or not - the file it leaves never gives a wrong location: if it opens and a pass of it can be made, what a lookup finds is the location of the node with that id. (Partial: for more than 127 nodes, if the write of the 16 bytes of the header is not cut within its second word, see below.) | C95_torn_header_refuted: C95 is false of the code if the write of the header can be cut within its second word: the file for 257 nodes with a gap after each, when the last write stops after nine bytes, opens, and the location it gives for node 10 is 20."
  },
  {
   "property": "C96",
   "status": "partial",
   "theorems": [
    "C96_never_wrong_partial",
    "C96_torn_header_refuted"
   ],
   "note": "C96_never_wrong_partial: C96. However a run of the way indexer ends - any write cut short or failing, any other call failing, cancelled or not - the file it leaves never gives wrong locations: if it opens and a pass of it can be made, what a lookup finds is what is kept of the refs of the way with that id. (Partial: if the write of the 16 bytes of the header is not cut, or the alignment is 1 and there are less than 256 ways, see below.) | C96_torn_header_refuted: C96 is false of the code if the write of the header can be cut: if it stops after its first word, the file opens and for way 7, whose nodes have the location -9, gives the location 1."
  },
  {
   "property": "C97",
   "status": "proved",
   "theorems": [
    "C97_numbers",
    "C97_never_back",
    "C97_position",
    "C97_end"
   ],
   "note": ""
  },
  {
   "property": "C98",
   "status": "partial",
   "theorems": [
    "C98_bar",
    "C98_bar_grows",
    "C98_line",
    "C98_pass_bar",
    "C98_pass_grows",
    "C98_later_pass_partial",
    "C98_later_pass_refuted"
   ],
   "note": "C98_later_pass_partial: C98, partial: from one pass to a later one it shrinks by at most one character (see below). | C98_later_pass_refuted: C98 is false of the code for several passes: with 100 passes and a line of 100 characters, 29 characters are highlighted at the end of pass 29 and 28 at the start of pass 30."
  },
  {
   "property": "C99",
   "status": "partial",
   "theorems": [
    "C99_dump",
    "C99_parts_partial",
    "C99_parts_whole",
    "C99_from_input_partial",
    "C99_parts_refuted",
    "C99_start_refuted"
   ],
   "note": "C99_parts_partial: C99, parts: if every one of the n parts can be dumped, the parts one after the other are the dump of an initial part of the index, each id once and in order; ... | C99_from_input_partial: C99. After indexing any input as in C47 whose nodes have valid coordinates, the dump of the index file prints with each option exactly the nodes of the input, in order, with their coordinates (and their ids), and no mismatch. | C99_parts_refuted: C99 is false of the code: the ten ranges in three parts: all three can be dumped, and id 90 is in none of them; in eleven parts the first panics; ... | C99_start_refuted: ... and a start element below zero makes every dump panic."
  },
  {
   "property": "C100",
   "status": "partial",
   "theorems": [
    "C100_dump",
    "C100_part_exact",
    "C100_from_input",
    "C100_part_refuted"
   ],
   "note": "C100_part_exact: C100, a part: exactly what is printed for part k of n (which can be dumped if some way starts before its end): with the first option all ways of the index, not only the part's; with the second every way not in the part is reported as a failure. | C100_part_refuted: C100 is false of the code: asked for part 1 of 5 of an index of ten ways, the tool prints all ten, and reports the eight ways of the other parts as failures."
  },
  {
   "property": "C101",
   "status": "partial",
   "theorems": [
    "C101_starts",
    "C101_exits",
    "C101_rules",
    "C101_node_dump_partial",
    "C101_accepted_refuted",
    "C101_node_dump_exact"
   ],
   "note": "C101_node_dump_partial: C101, partial: what an accepted command line of dumpnodeindex needs, on a file with index [rs ++ [l]], to be carried out without a panic: a start element that is not negative, at most as many parts as locations, and the part's share starting no later than the last range. | C101_accepted_refuted: C101 is false of the code: dumpwayindex accepts part -1 of 1, and panics on every index; it accepts part -1 of 0, and divides by zero; dumpnodeindex accepts more parts than there are locations and negative start elements, and panics. | C101_node_dump_exact: C101, exactly (the part numbers are unsigned): an accepted command line of dumpnodeindex is carried out without a panic, on a file with index [rs ++ [l]], if and only if there are at most as many parts as locations, the part's share starts no later than the last range, and the start element is not negative or no element is to be printed."
  },
  {
   "property": "C102",
   "status": "partial",
   "theorems": [
    "C102_decompress",
    "C102_index_partial",
    "C102_passing_refuted",
    "C102_same_programs"
   ],
   "note": "C102_index_partial: C102, partial. The same for the workers of the node index, way index and relation index tools. Missing: while a worker sends on a block that is not OSMData its line says that it is waiting (see C102_passing_refuted). | C102_passing_refuted: C102 is false of the code for other blocks: a worker of the node index tool sends on the header (block 3) and its line says that it is waiting."
  },
  {
   "property": "C103",
   "status": "partial",
   "theorems": [
    "C103_rewriter_partial",
    "C103_same_block",
    "C103_race_refuted"
   ],
   "note": "C103_rewriter_partial: C103, partial. The line about a worker of the rewriter, for all blocks, indexes and passes. If it is made while the worker is doing something (and does not get on with it), it says what the worker is doing, and with which block; when it rewrites, also the number of the way at work and the number of ways of the block, with a bar of their quotient. In any case the words are right for some moment while the line was made, and each of the numbers for some later moment. Missing: a block that is not OSMData is sent on while the line says that the worker waits; the numbers may be about different blocks (see C103_race_refuted). | C103_race_refuted: C103 is false of the code without \"at the same moment\": a line begun at the last way of block 1, which has two, and done in block 2, which has one."
  },
  {
   "property": "C104",
   "status": "partial",
   "theorems": [
    "C104_tagfilter_partial",
    "C104_counts",
    "C104_passing_refuted"
   ],
   "note": "C104_tagfilter_partial: C104, partial. The line about a worker of the tag filter, for all blocks. If it is made while the worker is doing something (and does not get on with it), it says what the worker is doing, and unless it waits the number of the block that was begun last, and how many nodes were kept (for a tag) and dropped, of the blocks that have been processed. In any case the words are right for some moment while the line was made, and each of the numbers for some later moment: a block that was begun last or is begun next; the nodes of all blocks before the one at work, with or without those of the latter. Missing: a block that is not OSMData is shown with the number of the block begun before it (see C104_passing_refuted). | C104_passing_refuted: C104 is false of the code for other blocks: the header, block 8, is sent after block 7 and shown as 7."
  },
  {
   "property": "C105",
   "status": "proved",
   "theorems": [
    "C105_files",
    "C105_has_words"
   ],
   "note": ""
  },
  {
   "property": "C106",
   "status": "partial",
   "theorems": [
    "C106_lines",
    "C106_tagfilter_partial",
    "C106_dropped_refuted"
   ],
   "note": "C106_tagfilter_partial: C106, the writer of the tag filter. If the line is made while the writer is doing something (and does not get on with it), it says whether it waits or writes, how many of the blocks received so far were dropped, and the number of the last block written or being written (0 if there is none). In any case the words are right for a moment while the line was made, and each number for a later moment, with or without the block then received. Missing: \"dropped x/y blocks\" as x of y blocks, which is false (C106_dropped_refuted). | C106_dropped_refuted: \"dropped x/y blocks\" is not \"x of y\": after a first block that was dropped, the line says that 1 of 0 blocks were."
  },
  {
   "property": "C107",
   "status": "partial",
   "theorems": [
    "C107_node_partial",
    "C107_way_partial",
    "C107_same_programs",
    "C107_node_messages",
    "C107_way_messages",
    "C107_number_refuted",
    "C107_total_refuted"
   ],
   "note": "C107_node_partial: C107. The lines of the writer of the node index: if a line is made while the writer is doing something (and does not get on with it), it says what: that it waits, that it writes a part of the index, with the number of its entries, that it writes locations, that it copies locations, with the number of bytes copied, or that it is about to finish; in any case it is right for moments while the line was made. The bytes copied grow, to at most the size of the temporary file, and are all of them at the end if nothing is cancelled and reads make progress. The number shown as that of the bytes to copy is always the same; it is the size of the temporary file if the ranges of every message have as many ids as the message has locations. Missing: \"writing index block n\" with n the number of the block (C107_number_refuted); the total for messages that are not like that. | C107_way_partial: The lines of the writer of the way index, likewise; the words \"writing index block\" are also for writing the locations. The total is right if the locations of every message are a whole number of units of 2^shift bytes. | C107_number_refuted: \"writing index block n\": n is not the number of the block but the number of its entries in the index. | C107_total_refuted: The total can be wrong for the messages of a block that begins with node 1: of a temporary file of 24 bytes, 10 are said to be 125%."
  },
  {
   "property": "C108",
   "status": "partial",
   "theorems": [
    "C108_percent",
    "C108_grows",
    "C108_ends",
    "C108_end_refuted",
    "C108_nothing_refuted"
   ],
   "note": "C108_end_refuted: \"100.0%\" is also shown before the end: at 9996 of 10000. With nothing to do there is no number: with nothing to copy the node index says NaN%."
  },
  {
   "property": "C109",
   "status": "partial",
   "theorems": [
    "C109_line",
    "C109_truth",
    "C109_never_back",
    "C109_screen_partial",
    "C109_full_exact",
    "C109_pass",
    "C109_sign_refuted"
   ],
   "note": "C109_screen_partial: C109, partial. In a view of width w, while the position is before the end of the file (a < m), the line is shown as it is, padded to the width, with the share a/m of the width highlighted (off by less than two characters). Missing: the end of the file, see below. | C109_full_exact: C109, exact. At the end of the file (a = m): a line that fits (its text, and the percent sign) is shown without the percent sign and without any highlighting (the spaces that follow have the style named by a space); one that is longer than the view is shown as it is, with w characters highlighted. For texts without a percent sign of their own."
  },
  {
   "property": "C110",
   "status": "partial",
   "theorems": [
    "C110_stop",
    "C110_after",
    "C110_keys",
    "C110_shown",
    "C110_order_partial",
    "C110_order_refuted"
   ],
   "note": ""
  },
  {
   "property": "C111",
   "status": "proved",
   "theorems": [
    "C111_exact"
   ],
   "note": "C111_exact: C111: exactly which blocks can be written, and how many bytes are written."
  },
  {
   "property": "C112",
   "status": "partial",
   "theorems": [
    "C112_memory_partial",
    "C112_memory_refuted"
   ],
   "note": "C112_memory_partial: C112. With a memory limit of [m] MiB the rewrite takes the least number of passes whose equal shares of the locations (8 bytes each) are below the limit, and the ranges of a pass, but for its last one, are below it too."
  }
 ]
}