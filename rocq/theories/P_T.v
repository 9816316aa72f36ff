(** * P_T: property theorems (generated from TThms.v by tools/gen_props.py). *)
From Verif Require Import Base BaseLemmas PbModel PbSpec PbProofs PbProofs2 TModel TSpec TProofs TMsg TMsg2 TThms.

(** C13. Writing always succeeds, only appends, and reading what was appended,
    whatever lies beyond it in memory, gives the same strings in the same order. *)
Theorem C13_string_table_roundtrip : forall st buf,
  Forall bytes st ->
  exists p, StringTable_Write st buf = Ok (buf ++ p) /\
    (zlen p < 2^63 -> forall e, ReadStringTable (mkslice p e) [] = Ok st).
Proof. exact pC13_string_table_roundtrip. Qed.
Print Assumptions C13_string_table_roundtrip.

Example C13_ex :
  StringTable_Write [[]; [104; 105]; [255]] [9] = Ok [9; 10; 0; 10; 2; 104; 105; 10; 1; 255] /\
  ReadStringTable (mkslice [10; 0; 10; 2; 104; 105; 10; 1; 255] [7]) [] = Ok [[]; [104; 105]; [255]].
Proof. exact pC13_ex. Qed.

(** C14. *)
Theorem C14_dense_roundtrip : forall d buf out,
  dense_typed d -> DenseNodes_Write d buf = Ok out -> zlen out < 2^63 ->
  exists p, out = buf ++ p /\
    forall e, exists d', ReadDenseNodes (mkslice p e) DenseNodes0 = Ok d' /\ same_dense d d'.
Proof. exact pC14_dense_roundtrip. Qed.
Print Assumptions C14_dense_roundtrip.

Example C14_ex :
  dense_typed ex_dense /\ exists out, DenseNodes_Write ex_dense [1] = Ok out /\ zlen out < 2^63 /\
    ReadDenseNodes (mkslice (tl out) [3]) DenseNodes0 = Ok ex_dense.
Proof. exact pC14_ex. Qed.

(** C15. The way read back is the same record. *)
Theorem C15_way_roundtrip : forall w buf out,
  way_typed w -> Way_Write w buf = Ok out -> zlen out < 2^63 ->
  exists p, out = buf ++ p /\ forall e w0, ReadWay (mkslice p e) w0 = Ok w.
Proof. exact pC15_way_roundtrip. Qed.
Print Assumptions C15_way_roundtrip.

Example C15_ex :
  way_typed ex_way /\ exists out, Way_Write ex_way [1] = Ok out /\ zlen out < 2^63 /\
    ReadWay (mkslice (tl out) [3]) Way0 = Ok ex_way.
Proof. exact pC15_ex. Qed.

(** C17. *)
Theorem C17_relation_roundtrip : forall r buf out,
  relation_typed r -> Relation_Write r buf = Ok out -> zlen out < 2^63 ->
  exists p, out = buf ++ p /\ forall e r0, ReadRelation (mkslice p e) r0 = Ok r.
Proof. exact pC17_relation_roundtrip. Qed.
Print Assumptions C17_relation_roundtrip.

Example C17_ex :
  relation_typed ex_rel /\ exists out, Relation_Write ex_rel [1] = Ok out /\ zlen out < 2^63 /\
    ReadRelation (mkslice (tl out) [3]) Relation0 = Ok ex_rel.
Proof. exact pC17_ex. Qed.

(** C18. A group that holds each section in the form the reader [pbr] produces
    (raw if skipped, parsed otherwise) is read back as the same group. *)
Theorem C18_group_roundtrip : forall pbr g buf out,
  group_typed g -> group_form pbr g -> PrimitiveGroup_Write g buf = Ok out -> zlen out < 2^63 ->
  exists p, out = buf ++ p /\
    forall e, exists g', ReadPrimitiveGroup pbr (mkslice p e) PrimitiveGroup0 = Ok g' /\ same_group g g'.
Proof. exact pC18_group_roundtrip. Qed.
Print Assumptions C18_group_roundtrip.

Example C18_ex :
  group_typed ex_group /\ group_form ex_pbr ex_group /\
  exists out, PrimitiveGroup_Write ex_group [] = Ok out /\ zlen out < 2^63 /\
    ReadPrimitiveGroup ex_pbr (mkslice out [3]) PrimitiveGroup0 = Ok ex_group.
Proof. exact pC18_ex. Qed.

(** C19. *)
Theorem C19_block_roundtrip : forall pbr p buf out,
  block_typed p -> block_form pbr p -> PrimitiveBlock_Write p buf = Ok out -> zlen out < 2^63 ->
  exists enc, out = buf ++ enc /\
    forall e, exists p', ReadPrimitiveBlock pbr (mkslice enc e) PrimitiveBlock0 = Ok p' /\ same_block p p'.
Proof. exact pC19_block_roundtrip. Qed.
Print Assumptions C19_block_roundtrip.

Example C19_ex :
  block_typed ex_block /\ block_form ex_pbr ex_block /\
  exists out, PrimitiveBlock_Write ex_block [] = Ok out /\ zlen out < 2^63 /\
    ReadPrimitiveBlock ex_pbr (mkslice out [3]) PrimitiveBlock0 = Ok ex_block.
Proof. exact pC19_ex. Qed.

(** C21, header.  Writing never fails. *)
Theorem C21_blob_header_roundtrip : forall bh buf,
  bytes (bh_Type bh) -> is_s32 (bh_DataSize bh) ->
  exists p, BlobHeader_Write bh buf = buf ++ p /\
    (zlen p < 2^63 -> forall e, ReadBlobHeader (mkslice p e) = Ok bh).
Proof. exact pC21_blob_header_roundtrip. Qed.
Print Assumptions C21_blob_header_roundtrip.

(** C21, blob with its raw data in memory. *)
Theorem C21_blob_roundtrip : forall b buf out,
  blob_RawFunc b = None -> bytes (raw_bytes (blob_Raw b)) ->
  (forall n, blob_RawSize b = Some n -> is_s32 n) -> bytes (elems (blob_ZLibData b)) ->
  Blob_Write b buf = Ok out -> zlen out < 2^63 ->
  exists p, out = buf ++ p /\
    forall e, exists b', ReadBlob (mkslice p e) Blob0 = Ok b' /\
      raw_bytes (blob_Raw b') = raw_bytes (blob_Raw b) /\
      blob_RawSize b' = blob_RawSize b /\
      elems (blob_ZLibData b') = elems (blob_ZLibData b).
Proof. exact pC21_blob_roundtrip. Qed.
Print Assumptions C21_blob_roundtrip.

(** C21, blob whose raw data is produced by a writer (as the tools do with a
    primitive block): what the writer appends is what is read back. *)
Theorem C21_blob_writer_roundtrip : forall b p0 payload buf out,
  blob_RawFunc b = Some (PrimitiveBlock_Write p0) ->
  PrimitiveBlock_Write p0 [] = Ok payload -> bytes payload ->
  (forall n, blob_RawSize b = Some n -> is_s32 n) -> bytes (elems (blob_ZLibData b)) ->
  Blob_Write b buf = Ok out -> zlen out < 2^63 ->
  exists p, out = buf ++ p /\
    forall e, exists b', ReadBlob (mkslice p e) Blob0 = Ok b' /\
      raw_bytes (blob_Raw b') = payload /\
      blob_RawSize b' = blob_RawSize b /\
      elems (blob_ZLibData b') = elems (blob_ZLibData b).
Proof. exact pC21_blob_writer_roundtrip. Qed.
Print Assumptions C21_blob_writer_roundtrip.

Example C21_ex :
  ReadBlobHeader (exact (BlobHeader_Write (mkBlobHeader [79; 83] (-3)) [])) = Ok (mkBlobHeader [79; 83] (-3)) /\
  (exists out, Blob_Write (mkBlob (Some (mkslice [1; 2] [5])) (Some 2) (Some []) None) [4] = Ok (4 :: out) /\
     ReadBlob (exact out) Blob0 = Ok (mkBlob (Some (mkslice [1; 2] [16; 2])) (Some 2) None None)) /\
  (exists out payload, PrimitiveBlock_Write ex_block [] = Ok payload /\
     Blob_Write (mkBlob None None None (Some (PrimitiveBlock_Write ex_block))) [] = Ok out /\
     ReadBlob (exact out) Blob0 = Ok (mkBlob (Some (mkslice payload [])) None None None)).
Proof. exact pC21_ex. Qed.

(** C22. For every group freshly read (empty cache) whose array holds the tags of
    [nodes], and every history of lookups, looking up [i] gives exactly the keys and
    values of the i-th node, and panics only for an [i] that is no node. *)
Theorem C22_dense_tags : forall nodes d idxs,
  Forall (Forall tag_ok) nodes -> nodes <> [] ->
  dn_KeyVals d = dense_array nodes -> dn_cacheKeys d = [] -> dn_cacheVals d = [] ->
  lookups d idxs =
  map (fun i => if (0 <=? i) && (i <? zlen nodes)
                then Ok (map fst (nth (Z.to_nat i) nodes []), map snd (nth (Z.to_nat i) nodes []))
                else Panic IndexOutOfRange) idxs.
Proof. exact pC22_dense_tags. Qed.
Print Assumptions C22_dense_tags.

(** C22. A group without key/values array has no tags. *)
Theorem C22_dense_no_tags : forall d idxs,
  dn_KeyVals d = [] -> lookups d idxs = map (fun _ => Ok ([], [])) idxs.
Proof. exact pC22_dense_no_tags. Qed.
Print Assumptions C22_dense_no_tags.

Example C22_ex :
  let nodes := [[(1, 2); (3, 0)]; []; [(5, 2^31 - 1)]] in
  Forall (Forall tag_ok) nodes /\
  dense_array nodes = [1; 2; 3; 0; 0; 0; 5; 2^31 - 1; 0] /\
  lookups (mkDense [7; 8; 9] [] [] (dense_array nodes) [] []) [2; 3; 0; 1; 2] =
  [Ok ([5], [2^31 - 1]); Panic IndexOutOfRange; Ok ([1; 3], [2; 0]); Ok ([], []); Ok ([5], [2^31 - 1])].
Proof. exact pC22_ex. Qed.
