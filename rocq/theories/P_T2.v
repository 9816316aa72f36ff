(** * P_T2: property theorems (generated from T2Thms.v by tools/gen_props.py). *)
From Verif Require Import Base BaseLemmas PbModel PbSpec PbProofs PbProofs2 TModel TSpec TProofs TMsg TMsg2 T2Proofs T2Items T2Raw T2Thms.

(** C10 is false of the code: here the nested way declares 2 bytes, inside which a refs
    field claims 3 bytes; the reader takes them from the enclosing group and returns
    refs 21, 20, 20 instead of rejecting the input.  (Read on its own the same way is
    rejected.) *)
Theorem C10_nested_overread_refuted :
  let way := [66; 3] in
  ReadPrimitiveGroup (mkReader false false false false) (exact (26 :: 2 :: way ++ [42; 1; 0])) PrimitiveGroup0
    = Ok (mkGroup None None (Some [mkWay 0 [] [] [21; 20; 20]]) [] None []) /\
  ReadWay (exact way) Way0 = Panic SliceOutOfRange.
Proof. exact pC10_nested_overread_refuted. Qed.
Print Assumptions C10_nested_overread_refuted.

(** C10, the part that holds: when nothing lies beyond the buffer (capacity equal to
    length), a string table, blob or blob header that is accepted consists exactly of
    well-formed items, each inner length covering bytes of the buffer; a way, relation or
    dense section consists of well-formed items followed at most by one skipped field
    that claims more bytes than are left.  Missing: readers handed a slice with spare
    capacity, i.e. every nested message (see the refutation), and blobs and groups with
    huge (negative) lengths. *)
Theorem C10_exact_extent_partial : forall v,
  bytes v -> zlen v < 2^63 ->
  let whole := exists items, v = concat (map item_bytes items) /\ Forall item_wf items in
  let up_to_skip := exists items tail, v = concat (map item_bytes items) ++ tail /\
    Forall item_wf items /\
    (tail = [] \/ exists key len rest, tail = key ++ len ++ rest /\ is_varint key /\
       is_varint len /\ zlen rest < leb_value len) in
  (forall st r, ReadStringTable (exact v) st = Ok r -> whole) /\
  (forall st r, ReadBlob (exact v) st = Ok r -> whole) /\
  (forall r, ReadBlobHeader (exact v) = Ok r -> whole) /\
  (no_huge v -> forall st r, ReadWay (exact v) st = Ok r -> up_to_skip) /\
  (no_huge v -> forall st r, ReadRelation (exact v) st = Ok r -> up_to_skip) /\
  (no_huge v -> forall st r, ReadDenseNodes (exact v) st = Ok r -> up_to_skip).
Proof. exact pC10_exact_extent_partial. Qed.
Print Assumptions C10_exact_extent_partial.

Example C10_ex :
  (exists r, ReadStringTable (exact [10; 1; 65]) [] = Ok r) /\
  no_huge [8; 5; 34; 1; 7] /\ ReadWay (exact [8; 5; 34; 1; 7]) Way0 = Ok (mkWay 5 [] [] []) /\
  ReadWay (exact [8; 5; 34; 9; 7]) Way0 = Ok (mkWay 5 [] [] []).
Proof. exact pC10_ex. Qed.

(** The reader loop is modelled with as much fuel as there are bytes.  That is
    adequate: if it does not suffice, no amount of iterations does, i.e. the Go loop
    runs forever.  (For every reader of the package: [h] is the reader's switch.) *)
Theorem C11_fuel_adequate : forall St (h : handler St) b st,
  bytes (vis b) -> slen b < 2^63 ->
  read_msg h b st = Diverge -> forall fuel, read_fuel fuel h b st = Diverge.
Proof. exact pC11_fuel_adequate. Qed.
Print Assumptions C11_fuel_adequate.

Theorem C11_skip_loops_refuted :
  (forall fuel w, read_fuel fuel way_handler (exact (34 :: minus_eleven)) w = Diverge) /\
  (forall fuel r, read_fuel fuel relation_handler (exact (34 :: minus_eleven)) r = Diverge) /\
  (forall fuel d, read_fuel fuel dense_handler (exact (42 :: minus_eleven)) d = Diverge) /\
  (forall pbr fuel g, read_fuel fuel (group_handler pbr) (exact (42 :: minus_eleven)) g = Diverge).
Proof. exact pC11_skip_loops_refuted. Qed.
Print Assumptions C11_skip_loops_refuted.

(** C11, the part that holds: blob, blob header and string table readers return or panic
    on every input; the others do so when no varint of the buffer (or of the memory up
    to its capacity) has a value of 2^63 or more, i.e. when no length is negative. *)
Theorem C11_readers_terminate_partial : forall b,
  go_slice b ->
  (forall st, ReadBlob b st <> Diverge) /\
  ReadBlobHeader b <> Diverge /\
  (forall st, ReadStringTable b st <> Diverge) /\
  (no_huge (vis b ++ ext b) ->
    (forall st, ReadWay b st <> Diverge) /\
    (forall st, ReadRelation b st <> Diverge) /\
    (forall st, ReadDenseNodes b st <> Diverge) /\
    (forall pbr st, ReadPrimitiveGroup pbr b st <> Diverge) /\
    (forall pbr st, ReadPrimitiveBlock pbr b st <> Diverge)).
Proof. exact pC11_readers_terminate_partial. Qed.
Print Assumptions C11_readers_terminate_partial.

Example C11_ex : go_slice (mkslice [34; 1; 7; 8; 9] [200]) /\ no_huge ([34; 1; 7; 8; 9] ++ [200]).
Proof. exact pC11_ex. Qed.

Theorem C12_beyond_end_irrelevant : forall v e,
  (forall st r, ReadWay (exact v) st = Ok r -> ReadWay (mkslice v e) st = Ok r) /\
  (forall st r, ReadRelation (exact v) st = Ok r -> ReadRelation (mkslice v e) st = Ok r) /\
  (forall st r, ReadDenseNodes (exact v) st = Ok r -> ReadDenseNodes (mkslice v e) st = Ok r) /\
  (forall st r, ReadStringTable (exact v) st = Ok r -> ReadStringTable (mkslice v e) st = Ok r) /\
  (forall r, ReadBlobHeader (exact v) = Ok r -> ReadBlobHeader (mkslice v e) = Ok r) /\
  (forall pbr st r, ReadPrimitiveGroup pbr (exact v) st = Ok r ->
     ReadPrimitiveGroup pbr (mkslice v e) st = Ok r) /\
  (forall pbr st r, ReadPrimitiveBlock pbr (exact v) st = Ok r ->
     ReadPrimitiveBlock pbr (mkslice v e) st = Ok r) /\
  (forall r, ReadBlob (exact v) Blob0 = Ok r ->
     exists r', ReadBlob (mkslice v e) Blob0 = Ok r' /\ same_blob_bytes r r').
Proof. exact pC12_beyond_end_irrelevant. Qed.
Print Assumptions C12_beyond_end_irrelevant.

Example C12_ex : ReadWay (exact [8; 5; 66; 1; 6]) Way0 = Ok (mkWay 5 [] [] [3]) /\
  ReadBlob (exact [10; 1; 7]) Blob0 <> Panic SliceOutOfRange.
Proof. exact pC12_ex. Qed.

Theorem C16_way_too_large_refuted :
  let w := mkWay 1 [] [] (alternating 1000) in
  way_typed w /\ zlen (way_Refs w) = 2000 /\
  exists p, PrimitiveGroup_Write (mkGroup None None (Some [w]) [] None []) [] = Panic p.
Proof. exact pC16_way_too_large_refuted. Qed.
Print Assumptions C16_way_too_large_refuted.

Theorem C16_way_within_limit_partial : forall ws buf,
  Forall way_small ws ->
  exists out, PrimitiveGroup_Write (mkGroup None None (Some ws) [] None []) buf = Ok out.
Proof. exact pC16_way_within_limit_partial. Qed.
Print Assumptions C16_way_within_limit_partial.

Example C16_ex : way_small (mkWay 7 [1; 2^21 - 1] [0; 5] (repeat (2^34 - 1) 2000)).
Proof. exact pC16_ex. Qed.

(** C20, groups.  [fs] is any sequence of length-delimited fields, written with any valid
    length varint; what is written is again such a sequence, and the skipped sections
    in it carry the same bytes in the same order. *)
Theorem C20_group_sections_preserved : forall pbr fs e g out,
  fields_wf fs -> bytes (fields_bytes fs) -> zlen (fields_bytes fs) < 2^63 ->
  ReadPrimitiveGroup pbr (mkslice (fields_bytes fs) e) PrimitiveGroup0 = Ok g ->
  PrimitiveGroup_Write g [] = Ok out -> zlen out < 2^63 ->
  exists fs', out = fields_bytes fs' /\ fields_wf fs' /\ raw_preserved pbr fs fs'.
Proof. exact pC20_group_sections_preserved. Qed.
Print Assumptions C20_group_sections_preserved.

(** C20, blocks: the string table section when skipped, and the groups in order, each
    with its skipped sections preserved. *)
Theorem C20_block_sections_preserved : forall pbr l e p out,
  Forall bitem_wf l -> bytes (block_bytes_of l) -> zlen (block_bytes_of l) < 2^63 ->
  ReadPrimitiveBlock pbr (mkslice (block_bytes_of l) e) PrimitiveBlock0 = Ok p ->
  PrimitiveBlock_Write p [] = Ok out -> zlen out < 2^63 ->
  exists l', out = block_bytes_of l' /\ Forall bitem_wf l' /\
    (SkipStringTable pbr = true -> last_payload 1 (bfields l') = last_payload 1 (bfields l)) /\
    Forall2 (fun q q' => forall fs, q = fields_bytes fs -> fields_wf fs ->
       exists fs', q' = fields_bytes fs' /\ fields_wf fs' /\ raw_preserved pbr fs fs')
      (payloads 2 (bfields l)) (payloads 2 (bfields l')).
Proof. exact pC20_block_sections_preserved. Qed.
Print Assumptions C20_block_sections_preserved.

(** A skipped dense section that is not even parseable (its bytes are 255 255) survives,
    while the way next to it is parsed. *)
Example C20_ex :
  let pbr := mkReader true true false false in
  let g := fields_bytes [mkField 2 [2] [255; 255]; mkField 3 [2] [8; 5]] in
  let l := [BF (mkField 1 [131; 0] [10; 1; 65]); BF (mkField 2 [8] g); BV 17 [10]] in
  Forall bitem_wf l /\
  exists p out, ReadPrimitiveBlock pbr (exact (block_bytes_of l)) PrimitiveBlock0 = Ok p /\
    PrimitiveBlock_Write p [] = Ok out /\ zlen out < 2^63.
Proof. exact pC20_ex. Qed.
