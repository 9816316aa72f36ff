(** * P_HL: property theorems (generated from HLThms.v by tools/gen_props.py). *)
From Verif Require Import Base BaseLemmas PbModel PbSpec PbProofs PbProofs2 TModel TSpec TProofs TMsg TMsg2 HLModel HLSpec HLProofs HLProofs2 HLProofs3 TThms HLThms.

(** C23.  Strings [L] are added in order, then the builder is finalised; fewer than
    2^32-1 additions.  Every added string and the empty string has exactly one index,
    the table entry at that index is the string, distinct strings have distinct
    indexes, the table holds nothing else and no string twice, and any other string
    panics. *)
Theorem C23_index_bijection : forall L, zlen L < 2^32 - 1 ->
  exists stb, (stb <- foldm AddString L NewStringTableBuilder ;; Finalize stb) = Ok stb /\
    let t := ToStringTable stb in
    NoDup t /\ (forall s, In s t <-> In s ([] :: L)) /\
    (forall s, In s ([] :: L) -> exists i, GetIndex stb s = Ok i /\ 0 <= i < zlen t /\
       (forall j, lidx t j = Ok s <-> j = i)) /\
    (forall s s' i, GetIndex stb s = Ok i -> GetIndex stb s' = Ok i -> s = s') /\
    (forall s, ~ In s ([] :: L) -> exists m, GetIndex stb s = Panic m).
Proof. exact pC23_index_bijection. Qed.
Print Assumptions C23_index_bijection.

Example C23_ex :
  exists stb, (stb <- foldm AddString [[98]; [97]; [98]; []] NewStringTableBuilder ;; Finalize stb) = Ok stb /\
    ToStringTable stb = [[98]; [97]; []] /\ GetIndex stb [98] = Ok 0 /\ GetIndex stb [] = Ok 2 /\
    GetIndex stb [99] = Panic (PanicMsg "unknown string").
Proof. exact pC23_ex. Qed.

(** C24, what the order is, for all additions: by decreasing weight, ties by bytes,
    where the weight is the number of additions, plus 2^32-1 for the empty string,
    modulo 2^32; and there is only one list of the table's strings in this order, so
    the sorting algorithm does not matter. *)
Theorem C24_order : forall L,
  exists stb, (stb <- foldm AddString L NewStringTableBuilder ;; Finalize stb) = Ok stb /\
    StronglySorted (heavier L) (ToStringTable stb) /\
    forall l, Permutation l (ToStringTable stb) -> StronglySorted (heavier L) l -> l = ToStringTable stb.
Proof. exact pC24_order. Qed.
Print Assumptions C24_order.

(** C24 as stated holds when the empty string is never added explicitly: the empty
    string first, then by decreasing number of additions, ties by bytes. *)
Theorem C24_frequency_order_partial : forall L, ~ In [] L -> zlen L < 2^32 - 1 ->
  exists stb r, (stb <- foldm AddString L NewStringTableBuilder ;; Finalize stb) = Ok stb /\
    ToStringTable stb = [] :: r /\
    StronglySorted (fun a b => occurrences L b < occurrences L a \/
                               occurrences L a = occurrences L b /\ bytes_lt a b) r.
Proof. exact pC24_frequency_order_partial. Qed.
Print Assumptions C24_frequency_order_partial.

Example C24_partial_ex :
  let L := [[98]; [97]; [99; 1]; [98]; [97]] in ~ In [] L /\
  exists stb, (stb <- foldm AddString L NewStringTableBuilder ;; Finalize stb) = Ok stb /\
    ToStringTable stb = [[]; [97]; [98]; [99; 1]].
Proof. exact pC24_partial_ex. Qed.

(** C24 fails when the empty string is added: its counter wraps around from 2^32-1 to
    0 and it is sorted last although it was added most often. *)
Theorem C24_frequency_order_refuted :
  exists L stb, (stb <- foldm AddString L NewStringTableBuilder ;; Finalize stb) = Ok stb /\
    occurrences L [] = 1 /\ occurrences L [97] = 1 /\ ToStringTable stb = [[97]; []].
Proof. exact pC24_frequency_order_refuted. Qed.
Print Assumptions C24_frequency_order_refuted.

(** C25.  Two lists of entities that differ only in the iteration order of their tag
    maps give the same block. *)
Theorem C25_order_independent : forall ns ws rs ns' ws' rs',
  Forall (fun n => is_map (hn_Tags n)) ns -> Forall (fun w => is_map (hw_Tags w)) ws ->
  Forall (fun r => is_map (hr_Tags r)) rs ->
  Forall2 same_node ns ns' -> Forall2 same_way ws ws' -> Forall2 same_rel rs rs' ->
  MakePrimitiveBlock ns' ws' rs' = MakePrimitiveBlock ns ws rs.
Proof. exact pC25_order_independent. Qed.
Print Assumptions C25_order_independent.

Example C25_ex :
  Forall (fun n => is_map (hn_Tags n)) [ex_node; ex_node2] /\
  Forall2 same_node [ex_node; ex_node2] [mkNode (2^63 + 5) [([99], [98]); ([97], [98])] 1234567 (-1299); ex_node2] /\
  exists p, MakePrimitiveBlock [ex_node; ex_node2] [ex_hway] [ex_hrel] = Ok p /\
            MakePrimitiveBlock [mkNode (2^63 + 5) [([99], [98]); ([97], [98])] 1234567 (-1299); ex_node2] [ex_hway] [ex_hrel] = Ok p.
Proof. exact pC25_ex. Qed.

(** C26. *)
Theorem C26_ways_relations : forall ns ws rs,
  Forall node_typed ns -> Forall hway_typed ws -> Forall hrel_typed rs ->
  zlen (all_strings ns ws rs) < 2^31 ->
  exists p, MakePrimitiveBlock ns ws rs = Ok p /\
    exists ws' rs', ToWays p = Ok ws' /\ ToRelations p = Ok rs' /\
      Forall2 same_way ws ws' /\ Forall2 same_rel rs rs'.
Proof. exact pC26_ways_relations. Qed.
Print Assumptions C26_ways_relations.

Example C26_ex :
  Forall node_typed [ex_node; ex_node2] /\ Forall hway_typed [ex_hway] /\ Forall hrel_typed [ex_hrel] /\
  exists p, MakePrimitiveBlock [ex_node; ex_node2] [ex_hway] [ex_hrel] = Ok p /\
    ToWays p = Ok [mkHWay (-3) [([97], [98]); ([100], [])] [5; 2^64 - 1]] /\ ToRelations p = Ok [ex_hrel].
Proof. exact pC26_ex. Qed.

(** C27, exactly: the nodes come back as they should if and only if no node has a tag
    whose key is the string the block's table puts first.  (The first string has index 0,
    which in the nodes' key/value list means "next node".) *)
Theorem C27_nodes_exact : forall ns ws rs,
  Forall node_typed ns -> Forall hway_typed ws -> Forall hrel_typed rs ->
  zlen (all_strings ns ws rs) < 2^31 ->
  exists p, MakePrimitiveBlock ns ws rs = Ok p /\
    ((exists ns', ToNodes p = Ok ns' /\ Forall2 quantised_node ns ns') <-> first_key_free ns ws rs).
Proof. exact pC27_nodes_exact. Qed.
Print Assumptions C27_nodes_exact.

(** C27, in particular when no tag key, tag value or role of the block is the empty
    string: then the empty string is the first. *)
Theorem C27_nodes_partial : forall ns ws rs,
  Forall node_typed ns -> Forall hway_typed ws -> Forall hrel_typed rs ->
  zlen (all_strings ns ws rs) < 2^31 -> ~ In [] (all_strings ns ws rs) ->
  exists p, MakePrimitiveBlock ns ws rs = Ok p /\
    exists ns', ToNodes p = Ok ns' /\ Forall2 quantised_node ns ns'.
Proof. exact pC27_nodes_partial. Qed.
Print Assumptions C27_nodes_partial.

Example C27_partial_ex :
  let ns := [ex_node; ex_node2] in let ws := [ex_hway'] in let rs := [ex_hrel'] in
  Forall node_typed ns /\ Forall hway_typed ws /\ Forall hrel_typed rs /\ ~ In [] (all_strings ns ws rs) /\
  exists p, MakePrimitiveBlock ns ws rs = Ok p /\
    ToNodes p = Ok [mkNode (2^63 + 5) [([97], [98]); ([99], [98])] 1234500 (-1200);
                    mkNode 7 [] (-2^63 + 8) 300].
Proof. exact pC27_partial_ex. Qed.

(** An empty role, and still no tag is lost: the first string is a value. *)
Example C27_exact_ex :
  let ns := [mkNode 5 [([97], [98])] 100 0; mkNode 6 [([99], [98])] 200 0] in let rs := [mkHRel 8 [] [[]] [5] [0]] in
  Forall node_typed ns /\ Forall hrel_typed rs /\ In [] (all_strings ns [] rs) /\
  first_string (all_strings ns [] rs) [98] /\ first_key_free ns [] rs /\
  exists p, MakePrimitiveBlock ns [] rs = Ok p /\ ToNodes p = Ok ns.
Proof. exact pC27_exact_ex. Qed.

(** C27 fails when an empty string occurs anywhere in the block: here one relation has
    an empty role (a common case) and the node loses its only tag. *)
Theorem C27_nodes_refuted :
  exists ns rs, Forall node_typed ns /\ Forall hrel_typed rs /\ zlen (all_strings ns [] rs) < 2^31 /\
  exists p ns', MakePrimitiveBlock ns [] rs = Ok p /\ ToNodes p = Ok ns' /\ map hn_Tags ns = [[([97], [98])]] /\
    map hn_Tags ns' = [[]].
Proof. exact pC27_nodes_refuted. Qed.
Print Assumptions C27_nodes_refuted.

(** C28.  For every int64 coordinates, the node comes back with each coordinate moved
    towards zero by less than 100, to a multiple of 100; a multiple of 100 comes back
    unchanged. *)
Theorem C28_quantisation : forall id lat lon, is_u64 id -> is_s64 lat -> is_s64 lon ->
  exists p lat' lon', MakePrimitiveBlock [mkNode id [] lat lon] [] [] = Ok p /\
    ToNodes p = Ok [mkNode id [] lat' lon'] /\
    toward_zero_100 lat lat' /\ toward_zero_100 lon lon' /\
    ((exists k, lat = 100 * k) -> lat' = lat) /\ ((exists k, lon = 100 * k) -> lon' = lon).
Proof. exact pC28_quantisation. Qed.
Print Assumptions C28_quantisation.

Example C28_ex :
  exists p, MakePrimitiveBlock [mkNode 1 [] (-199) 1700000000] [] [] = Ok p /\
    ToNodes p = Ok [mkNode 1 [] (-100) 1700000000].
Proof. exact pC28_ex. Qed.

(** C29, ways and relations.  Whenever the block of the entities can be written as a
    blob appended to [buf] (the only failure is a section of 2^28 bytes or more), the
    bytes appended decode, whatever follows them in memory, to a blob whose raw data
    decodes to a block giving the same ways and relations. *)
Theorem C29_rewrite_ways_relations : forall ns ws rs p buf out,
  Forall node_typed ns -> Forall hway_typed ws -> Forall hrel_typed rs ->
  MakePrimitiveBlock ns ws rs = Ok p ->
  Blob_Write (mkBlob None None None (Some (PrimitiveBlock_Write p))) buf = Ok out -> zlen out < 2^63 ->
  exists enc, out = buf ++ enc /\ forall e, exists b raw p' ws' rs',
    ReadBlob (mkslice enc e) Blob0 = Ok b /\ blob_Raw b = Some raw /\
    ReadPrimitiveBlock (mkReader false false false false) raw PrimitiveBlock0 = Ok p' /\
    ToWays p' = Ok ws' /\ ToRelations p' = Ok rs' /\
    Forall2 same_way ws ws' /\ Forall2 same_rel rs rs'.
Proof. exact pC29_rewrite_ways_relations. Qed.
Print Assumptions C29_rewrite_ways_relations.

(** C29, nodes: they come back through the bytes if and only if no node has a tag whose
    key is the string the block's table puts first (see C27_nodes_refuted). *)
Theorem C29_rewrite_nodes_exact : forall ns ws rs p buf out,
  Forall node_typed ns -> Forall hway_typed ws -> Forall hrel_typed rs ->
  MakePrimitiveBlock ns ws rs = Ok p ->
  Blob_Write (mkBlob None None None (Some (PrimitiveBlock_Write p))) buf = Ok out -> zlen out < 2^63 ->
  exists enc, out = buf ++ enc /\ forall e, exists b raw p',
    ReadBlob (mkslice enc e) Blob0 = Ok b /\ blob_Raw b = Some raw /\
    ReadPrimitiveBlock (mkReader false false false false) raw PrimitiveBlock0 = Ok p' /\
    ((exists ns', ToNodes p' = Ok ns' /\ Forall2 quantised_node ns ns') <-> first_key_free ns ws rs).
Proof. exact pC29_rewrite_nodes_exact. Qed.
Print Assumptions C29_rewrite_nodes_exact.

(** C29, nodes, in particular when no tag key, tag value or role is the empty string. *)
Theorem C29_rewrite_nodes_partial : forall ns ws rs p buf out,
  Forall node_typed ns -> Forall hway_typed ws -> Forall hrel_typed rs ->
  ~ In [] (all_strings ns ws rs) ->
  MakePrimitiveBlock ns ws rs = Ok p ->
  Blob_Write (mkBlob None None None (Some (PrimitiveBlock_Write p))) buf = Ok out -> zlen out < 2^63 ->
  exists enc, out = buf ++ enc /\ forall e, exists b raw p' ns',
    ReadBlob (mkslice enc e) Blob0 = Ok b /\ blob_Raw b = Some raw /\
    ReadPrimitiveBlock (mkReader false false false false) raw PrimitiveBlock0 = Ok p' /\
    ToNodes p' = Ok ns' /\ Forall2 quantised_node ns ns'.
Proof. exact pC29_rewrite_nodes_partial. Qed.
Print Assumptions C29_rewrite_nodes_partial.

Example C29_ex :
  let ns := [ex_node; ex_node2] in let ws := [ex_hway'] in let rs := [ex_hrel'] in
  Forall node_typed ns /\ Forall hway_typed ws /\ Forall hrel_typed rs /\ ~ In [] (all_strings ns ws rs) /\
  exists p out b raw, MakePrimitiveBlock ns ws rs = Ok p /\
    Blob_Write (mkBlob None None None (Some (PrimitiveBlock_Write p))) [] = Ok out /\
    ReadBlob (mkslice out [7; 7]) Blob0 = Ok b /\ blob_Raw b = Some raw /\
    ReadPrimitiveBlock (mkReader false false false false) raw PrimitiveBlock0 = Ok p.
Proof. exact pC29_ex. Qed.
