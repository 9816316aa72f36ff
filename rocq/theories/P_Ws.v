(** * P_Ws: property theorems (generated from WsThms.v by tools/gen_props.py). *)
From Verif Require Import Base PbSpec TModel TSpec WsSpec WsThms.

(** Reading a way, a relation, dense nodes or a string table gives the data that the schema
    defines, whatever the order of the fields, the repetition of scalar fields and the width of
    the varints.  Partial: known fields only, packed, in one piece ([plain]). *)
Theorem C82_read_elements_partial :
  (forall p w e, way_msg p w -> zlen p < 2^63 -> ReadWay (mkslice p e) Way0 = Ok w) /\
  (forall p r e, relation_msg p r -> zlen p < 2^63 -> ReadRelation (mkslice p e) Relation0 = Ok r) /\
  (forall p d e, dense_msg p d -> zlen p < 2^63 ->
     exists d', ReadDenseNodes (mkslice p e) DenseNodes0 = Ok d' /\ same_dense d d') /\
  (forall p st e, strings_msg p st -> zlen p < 2^63 -> ReadStringTable (mkslice p e) [] = Ok st).
Proof. exact pC82_read_elements_partial. Qed.
Print Assumptions C82_read_elements_partial.

(** The same for primitive groups and blocks, for every choice of sections to skip. *)
Theorem C82_read_block_partial : forall pbr,
  (forall p g e, group_msg pbr p g -> zlen p < 2^63 ->
     exists g', ReadPrimitiveGroup pbr (mkslice p e) PrimitiveGroup0 = Ok g' /\ same_group g g') /\
  (forall p b e, block_msg pbr p b -> zlen p < 2^63 ->
     exists b', ReadPrimitiveBlock pbr (mkslice p e) PrimitiveBlock0 = Ok b' /\ same_block b b').
Proof. exact pC82_read_block_partial. Qed.
Print Assumptions C82_read_block_partial.

(** The same for the blob header and the blob of fileformat.proto. *)
Theorem C82_read_blob_partial :
  (forall p h e, header_msg p h -> zlen p < 2^63 -> ReadBlobHeader (mkslice p e) = Ok h) /\
  (forall p raw size zlib e, blob_msg p raw size zlib -> zlen p < 2^63 ->
     exists b, ReadBlob (mkslice p e) Blob0 = Ok b /\ option_map vis (blob_Raw b) = raw /\
       blob_RawSize b = size /\ blob_ZLibData b = zlib).
Proof. exact pC82_read_blob_partial. Qed.
Print Assumptions C82_read_blob_partial.

(** What [plain] excludes is indeed not read as the schema says.  A way whose packed refs come
    in two pieces loses the first; unpacked refs, a field of a later version of the schema (the
    lat/lon of a way), non-dense nodes, the index data of a blob header and other compressions
    make the reader panic. *)
Theorem C82_read_refuted :
  (exists fs p w, message p fs /\ way_of fs w /\ exists w', ReadWay (mkslice p []) Way0 = Ok w' /\ way_Refs w' <> way_Refs w) /\
  (exists fs p w, message p fs /\ way_of fs w /\ exists c, ReadWay (mkslice p []) Way0 = Panic c) /\
  (exists fs p w, message p fs /\ way_of fs w /\ elements 8 fs = [] /\ chunks 9 fs <> [] /\ exists c, ReadWay (mkslice p []) Way0 = Panic c) /\
  (exists fs p, message p fs /\ chunks 1 fs <> [] /\ exists c, ReadPrimitiveGroup (mkReader false false false false) (mkslice p []) PrimitiveGroup0 = Panic c) /\
  (exists fs p h, message p fs /\ header_of fs h /\ chunks 2 fs <> [] /\ exists c, ReadBlobHeader (mkslice p []) = Panic c) /\
  (exists fs p, message p fs /\ chunks 4 fs <> [] /\ exists c, ReadBlob (mkslice p []) Blob0 = Panic c).
Proof. exact pC82_read_refuted. Qed.
Print Assumptions C82_read_refuted.

(** A way with the refs before the id, an id given twice, author information, and a key and
    an id with more bytes than necessary. *)
Example C82_read_ex :
  way_msg [66; 3; 128 + 2; 0; 4;  34; 1; 77;  8; 9;  136; 0; 133; 128; 0;  18; 1; 6;  26; 1; 7]
          (mkWay 5 [6] [7] [1; 3]).
Proof. exact pC82_read_ex. Qed.

(** What the writers append for a way, a relation, dense nodes or a string table is a message
    of the schema with that data. *)
Theorem C83_write_elements :
  (forall w buf out, way_typed w -> Way_Write w buf = Ok out -> exists p, out = buf ++ p /\ way_msg p w) /\
  (forall r buf out, relation_typed r -> Relation_Write r buf = Ok out -> exists p, out = buf ++ p /\ relation_msg p r) /\
  (forall d buf out, dense_typed d -> DenseNodes_Write d buf = Ok out -> exists p, out = buf ++ p /\ dense_msg p d) /\
  (forall st buf out, Forall bytes st -> StringTable_Write st buf = Ok out -> zlen out < 2^63 -> exists p, out = buf ++ p /\ strings_msg p st).
Proof. exact pC83_write_elements. Qed.
Print Assumptions C83_write_elements.

(** The same for primitive groups and blocks; a section that is kept as raw bytes is written
    as these bytes. *)
Theorem C83_write_block : forall pbr,
  (forall g buf out, group_typed g -> group_form pbr g -> PrimitiveGroup_Write g buf = Ok out -> zlen out < 2^63 ->
     exists p, out = buf ++ p /\ group_msg pbr p g) /\
  (forall b buf out, block_typed b -> block_form pbr b -> PrimitiveBlock_Write b buf = Ok out -> zlen out < 2^63 ->
     exists p, out = buf ++ p /\ block_msg pbr p b).
Proof. exact pC83_write_block. Qed.
Print Assumptions C83_write_block.

(** The same for the blob header and the blob; empty raw or compressed data is left out. *)
Theorem C83_write_blob :
  (forall h buf, bytes (bh_Type h) -> is_s32 (bh_DataSize h) -> zlen (BlobHeader_Write h buf) < 2^63 ->
     exists p, BlobHeader_Write h buf = buf ++ p /\ header_msg p h) /\
  (forall raw size zlib buf out,
     (forall r, raw = Some r -> bytes (vis r)) -> (forall n, size = Some n -> is_s32 n) -> (forall z, zlib = Some z -> bytes z) ->
     Blob_Write (mkBlob raw size zlib None) buf = Ok out -> zlen out < 2^63 ->
     exists p, out = buf ++ p /\
       blob_msg p (match raw with Some r => if 0 <? slen r then Some (vis r) else None | None => None end) size
                  (match zlib with Some z => if 0 <? zlen z then Some z else None | None => None end)) /\
  (forall b size buf out, block_typed b -> is_s32 size ->
     Blob_Write (mkBlob None (Some size) None (Some (PrimitiveBlock_Write b))) buf = Ok out -> zlen out < 2^63 ->
     forall pbr, block_form pbr b -> exists p raw, out = buf ++ p /\ block_msg pbr raw b /\ blob_msg p (Some raw) (Some size) None).
Proof. exact pC83_write_blob. Qed.
Print Assumptions C83_write_blob.

(** A block with a way and granularity 200 satisfies the hypotheses. *)
Example C83_write_ex : let b := mkBlock None (Some [[]; [97]]) [mkGroup None None (Some [mkWay 5 [1] [1] [1; 3; -2]]) [] None []] 200 1000 0 (-7) in
  block_typed b /\ block_form (mkReader false false false false) b /\ exists out, PrimitiveBlock_Write b [1; 2] = Ok out /\ zlen out < 100.
Proof. exact pC83_write_ex. Qed.
