(** * TModel: executable model of the messages of /repo/internal/t.

    A reader is [for next := 0; next < len(buf); { id := DecodeVarInt(...); switch id
    {...} }].  The body is a [handler]: given the field id, the buffer and the cursor
    after the id it gives the new cursor and the update of the message being read
    (no case of any reader looks at the message read so far, so the update is a
    function).  Texts of "Unknown" panics are shortened (the Sprintf numbers are
    dropped). Go nil-ness of a slice is modelled (as [option]) where the code tests
    it, otherwise nil and empty are both []. *)

From Verif Require Import Base PbModel.

Definition handler (St : Type) : Type := Z -> slice -> Z -> res (Z * (St -> St)).

Definition msg_cond {St} (buf : slice) (s : Z * St) : bool := fst s <? slen buf.

Definition msg_body {St} (h : handler St) (buf : slice) (s : Z * St) : res (Z * St) :=
  let '(next, st) := s in
  '(id, next) <- DecodeVarInt buf next ;;
  '(next, update) <- h id buf next ;;
  Ok (next, update st).

(** The reader loop, from cursor 0, on explicit fuel. *)
Definition read_fuel {St} (fuel : nat) (h : handler St) (buf : slice) (st : St) : res St :=
  '(_, st) <- loop fuel (msg_cond buf) (msg_body h buf) (0, st) ;; Ok st.

(** Fuel one more than the number of bytes: if that is exhausted the loop revisits a
    cursor and never ends (theorem C11). *)
Definition read_msg {St} (h : handler St) (buf : slice) (st : St) : res St :=
  read_fuel (S (List.length (vis buf))) h buf st.

(** ** way.go *)

(** internal/t/way.go:19-24 [Way]. *)
Record Way : Type := mkWay
  { way_ID : Z; way_Keys : list Z; way_Vals : list Z; way_Refs : list Z }.
Definition Way0 : Way := mkWay 0 [] [] [].

(** internal/t/way.go:11-17 *)
Definition wayId := 1. Definition wayKeys := 2. Definition wayVals := 3.
Definition wayInfo := 4. Definition wayRefs := 8.

(** internal/t/way.go:26-44 [ReadWay], the switch. *)
Definition way_handler : handler Way := fun id buf next =>
  if id =? MakeIdType wayId PbVarInt then
    '(v, next) <- DecodeI64 buf next ;;
    Ok (next, fun w => mkWay v (way_Keys w) (way_Vals w) (way_Refs w))
  else if id =? MakeIdType wayKeys PbFixedBytes then
    '(v, next) <- DecodeU32Packed buf next ;;
    Ok (next, fun w => mkWay (way_ID w) v (way_Vals w) (way_Refs w))
  else if id =? MakeIdType wayVals PbFixedBytes then
    '(v, next) <- DecodeU32Packed buf next ;;
    Ok (next, fun w => mkWay (way_ID w) (way_Keys w) v (way_Refs w))
  else if id =? MakeIdType wayInfo PbFixedBytes then
    next <- SkipBytes buf next ;;
    Ok (next, fun w => w)
  else if id =? MakeIdType wayRefs PbFixedBytes then
    '(v, next) <- DecodeS64PackedDelta buf next ;;
    Ok (next, fun w => mkWay (way_ID w) (way_Keys w) (way_Vals w) v)
  else Panic (PanicMsg "Way: Unknown").

Definition ReadWay (buf : slice) (w : Way) : res Way := read_msg way_handler buf w.

(** internal/t/way.go:46-52 [Way.Write]. *)
Definition Way_Write (w : Way) (buf : list Z) : res (list Z) :=
  let buf := EncodeIdVarInt buf wayId (u64 (way_ID w)) in
  buf <- Embed16384 wayKeys (fun b => Ok (EncodeU32PackedFunc (way_Keys w) b)) buf ;;
  buf <- Embed16384 wayVals (fun b => Ok (EncodeU32PackedFunc (way_Vals w) b)) buf ;;
  Embed16384 wayRefs (fun b => Ok (EncodeS64PackedDeltaFunc (way_Refs w) b)) buf.

(** ** relation.go *)

(** internal/t/relation.go:25-32 [Relation]. *)
Record Relation : Type := mkRelation
  { rel_ID : Z; rel_Keys : list Z; rel_Vals : list Z; rel_RolesSID : list Z;
    rel_MemIDs : list Z; rel_MemberType : list Z }.
Definition Relation0 : Relation := mkRelation 0 [] [] [] [] [].

(** internal/t/relation.go:9-23 *)
Definition RelationMemberTypeWay := 1.
Definition relationId := 1. Definition relationKeys := 2. Definition relationVals := 3.
Definition relationInfo := 4. Definition relationRolesSID := 8.
Definition relationMemIDs := 9. Definition relationMemberType := 10.

(** internal/t/relation.go:34-56 [ReadRelation], the switch. *)
Definition relation_handler : handler Relation := fun id buf next =>
  if id =? MakeIdType relationId PbVarInt then
    '(v, next) <- DecodeI64 buf next ;;
    Ok (next, fun r => mkRelation v (rel_Keys r) (rel_Vals r) (rel_RolesSID r)
                                  (rel_MemIDs r) (rel_MemberType r))
  else if id =? MakeIdType relationKeys PbFixedBytes then
    '(v, next) <- DecodeU32Packed buf next ;;
    Ok (next, fun r => mkRelation (rel_ID r) v (rel_Vals r) (rel_RolesSID r)
                                  (rel_MemIDs r) (rel_MemberType r))
  else if id =? MakeIdType relationVals PbFixedBytes then
    '(v, next) <- DecodeU32Packed buf next ;;
    Ok (next, fun r => mkRelation (rel_ID r) (rel_Keys r) v (rel_RolesSID r)
                                  (rel_MemIDs r) (rel_MemberType r))
  else if id =? MakeIdType relationInfo PbFixedBytes then
    next <- SkipBytes buf next ;;
    Ok (next, fun r => r)
  else if id =? MakeIdType relationRolesSID PbFixedBytes then
    '(v, next) <- DecodeI32Packed buf next ;;
    Ok (next, fun r => mkRelation (rel_ID r) (rel_Keys r) (rel_Vals r) v
                                  (rel_MemIDs r) (rel_MemberType r))
  else if id =? MakeIdType relationMemIDs PbFixedBytes then
    '(v, next) <- DecodeS64PackedDelta buf next ;;
    Ok (next, fun r => mkRelation (rel_ID r) (rel_Keys r) (rel_Vals r) (rel_RolesSID r)
                                  v (rel_MemberType r))
  else if id =? MakeIdType relationMemberType PbFixedBytes then
    '(v, next) <- DecodeU64Packed buf next ;;
    Ok (next, fun r => mkRelation (rel_ID r) (rel_Keys r) (rel_Vals r) (rel_RolesSID r)
                                  (rel_MemIDs r) v)
  else Panic (PanicMsg "ReadRelation: Unknown").

Definition ReadRelation (buf : slice) (r : Relation) : res Relation :=
  read_msg relation_handler buf r.

(** internal/t/relation.go:58-66 [Relation.Write]. *)
Definition Relation_Write (r : Relation) (buf : list Z) : res (list Z) :=
  let buf := EncodeIdVarInt buf relationId (u64 (rel_ID r)) in
  buf <- Embed16384 relationKeys (fun b => Ok (EncodeU32PackedFunc (rel_Keys r) b)) buf ;;
  buf <- Embed16384 relationVals (fun b => Ok (EncodeU32PackedFunc (rel_Vals r) b)) buf ;;
  buf <- Embed2097152 relationRolesSID
           (fun b => Ok (EncodeI32PackedFunc (rel_RolesSID r) b)) buf ;;
  buf <- Embed2097152 relationMemIDs
           (fun b => Ok (EncodeS64PackedDeltaFunc (rel_MemIDs r) b)) buf ;;
  Embed2097152 relationMemberType (fun b => Ok (EncodeU64Packed (rel_MemberType r) b)) buf.

(** ** dense_nodes.go *)

(** internal/t/dense_nodes.go:17-25 [DenseNodes]. *)
Record DenseNodes : Type := mkDense
  { dn_Id : list Z; dn_Lat : list Z; dn_Lon : list Z; dn_KeyVals : list Z;
    dn_cacheKeys : list (list Z); dn_cacheVals : list (list Z) }.
Definition DenseNodes0 : DenseNodes := mkDense [] [] [] [] [] [].

(** internal/t/dense_nodes.go:9-15 *)
Definition denseNodesId := 1. Definition denseNodesDenseInfo := 5.
Definition denseNodesLat := 8. Definition denseNodesLon := 9.
Definition denseNodesKeyVals := 10.

(** internal/t/dense_nodes.go:27-45 [ReadDenseNodes], the switch. *)
Definition dense_handler : handler DenseNodes := fun id buf next =>
  if id =? MakeIdType denseNodesId PbFixedBytes then
    '(v, next) <- DecodeS64PackedDelta buf next ;;
    Ok (next, fun d => mkDense v (dn_Lat d) (dn_Lon d) (dn_KeyVals d)
                               (dn_cacheKeys d) (dn_cacheVals d))
  else if id =? MakeIdType denseNodesDenseInfo PbFixedBytes then
    next <- SkipBytes buf next ;;
    Ok (next, fun d => d)
  else if id =? MakeIdType denseNodesLat PbFixedBytes then
    '(v, next) <- DecodeS64PackedDelta buf next ;;
    Ok (next, fun d => mkDense (dn_Id d) v (dn_Lon d) (dn_KeyVals d)
                               (dn_cacheKeys d) (dn_cacheVals d))
  else if id =? MakeIdType denseNodesLon PbFixedBytes then
    '(v, next) <- DecodeS64PackedDelta buf next ;;
    Ok (next, fun d => mkDense (dn_Id d) (dn_Lat d) v (dn_KeyVals d)
                               (dn_cacheKeys d) (dn_cacheVals d))
  else if id =? MakeIdType denseNodesKeyVals PbFixedBytes then
    '(v, next) <- DecodeI32Packed buf next ;;
    Ok (next, fun d => mkDense (dn_Id d) (dn_Lat d) (dn_Lon d) v
                               (dn_cacheKeys d) (dn_cacheVals d))
  else Panic (PanicMsg "ReadDenseNodes: Unknown").

Definition ReadDenseNodes (buf : slice) (d : DenseNodes) : res DenseNodes :=
  read_msg dense_handler buf d.

(** internal/t/dense_nodes.go:47-55 [DenseNodes.Write]. *)
Definition DenseNodes_Write (d : DenseNodes) (buf : list Z) : res (list Z) :=
  buf <- Embed2097152 denseNodesId (fun b => Ok (EncodeS64PackedDeltaFunc (dn_Id d) b)) buf ;;
  buf <- Embed2097152 denseNodesLat (fun b => Ok (EncodeS64PackedDeltaFunc (dn_Lat d) b)) buf ;;
  buf <- Embed2097152 denseNodesLon (fun b => Ok (EncodeS64PackedDeltaFunc (dn_Lon d) b)) buf ;;
  if 0 <? zlen (dn_KeyVals d) then
    Embed268435456 denseNodesKeyVals (fun b => Ok (EncodeI32PackedFunc (dn_KeyVals d) b)) buf
  else Ok buf.

(** internal/t/dense_nodes.go:61-76: building the cache.  The loop over
    [startOfKeyVals] is recursion on the remaining array; a key without a value
    indexes outside the array. *)
Fixpoint kv_cache (kvs : list Z) (curKeys curVals : list Z)
    (cacheKeys cacheVals : list (list Z)) : res (list (list Z) * list (list Z)) :=
  match kvs with
  | [] => Ok (cacheKeys, cacheVals)
  | k :: rest =>
      if k =? 0 then
        kv_cache rest [] [] (cacheKeys ++ [curKeys]) (cacheVals ++ [curVals])
      else
        match rest with
        | [] => Panic IndexOutOfRange
        | v :: rest' =>
            kv_cache rest' (curKeys ++ [u32 k]) (curVals ++ [u32 v]) cacheKeys cacheVals
        end
  end.

(** internal/t/dense_nodes.go:57-80 [GetKeyVals]: returns the two slices and the
    receiver with its cache filled. *)
Definition GetKeyVals (d : DenseNodes) (idx : Z) : res (list Z * list Z * DenseNodes) :=
  if zlen (dn_KeyVals d) =? 0 then Ok ([], [], d) else
  d' <- (if zlen (dn_cacheKeys d) =? 0 then
           '(ck, cv) <- kv_cache (dn_KeyVals d) [] [] (dn_cacheKeys d) (dn_cacheVals d) ;;
           Ok (mkDense (dn_Id d) (dn_Lat d) (dn_Lon d) (dn_KeyVals d) ck cv)
         else Ok d) ;;
  ks <- lidx (dn_cacheKeys d') idx ;;
  vs <- lidx (dn_cacheVals d') idx ;;
  Ok (ks, vs, d').

(** ** reader.go *)

(** internal/t/reader.go:3-8 [PBReader]. *)
Record PBReader : Type := mkReader
  { SkipStringTable : bool; SkipDenseNodes : bool; SkipWays : bool; SkipRelations : bool }.

(** ** primitive_group.go *)

(** internal/t/primitive_group.go:17-28 [PrimitiveGroup]. *)
Record PrimitiveGroup : Type := mkGroup
  { pg_RawDense : option (list Z);
    pg_Dense : option DenseNodes;
    pg_Ways : option (list Way);
    pg_RawWays : list (list Z);
    pg_Relations : option (list Relation);
    pg_RawRelations : list (list Z) }.
Definition PrimitiveGroup0 : PrimitiveGroup := mkGroup None None None [] None [].

(** internal/t/primitive_group.go:9-15 *)
Definition primitiveGroupNodes := 1. Definition primitiveGroupDenseNodes := 2.
Definition primitiveGroupWays := 3. Definition primitiveGroupRelations := 4.
Definition primitiveGroupChangeSets := 5.

(** [append(s, x)] where [s] may be nil. *)
Definition opt_append {A} (o : option (list A)) (x : A) : option (list A) :=
  match o with None => Some [x] | Some l => Some (l ++ [x]) end.

(** internal/t/primitive_group.go:30-65 [ReadPrimitiveGroup], the switch. *)
Definition group_handler (pbr : PBReader) : handler PrimitiveGroup := fun id buf next =>
  if id =? MakeIdType primitiveGroupNodes PbFixedBytes then
    Panic (PanicMsg "non-dense nodes not supported")
  else if id =? MakeIdType primitiveGroupDenseNodes PbFixedBytes then
    if SkipDenseNodes pbr then
      '(b, next) <- DecodeBytes buf next ;;
      Ok (next, fun g => mkGroup (Some (vis b)) (pg_Dense g) (pg_Ways g) (pg_RawWays g)
                                 (pg_Relations g) (pg_RawRelations g))
    else
      '(b, next) <- DecodeBytes buf next ;;
      d <- ReadDenseNodes b DenseNodes0 ;;
      Ok (next, fun g => mkGroup (pg_RawDense g) (Some d) (pg_Ways g) (pg_RawWays g)
                                 (pg_Relations g) (pg_RawRelations g))
  else if id =? MakeIdType primitiveGroupWays PbFixedBytes then
    if SkipWays pbr then
      '(b, next) <- DecodeBytes buf next ;;
      Ok (next, fun g => mkGroup (pg_RawDense g) (pg_Dense g) (pg_Ways g)
                                 (pg_RawWays g ++ [vis b])
                                 (pg_Relations g) (pg_RawRelations g))
    else
      '(b, next) <- DecodeBytes buf next ;;
      w <- ReadWay b Way0 ;;
      Ok (next, fun g => mkGroup (pg_RawDense g) (pg_Dense g) (opt_append (pg_Ways g) w)
                                 (pg_RawWays g) (pg_Relations g) (pg_RawRelations g))
  else if id =? MakeIdType primitiveGroupRelations PbFixedBytes then
    if SkipRelations pbr then
      '(b, next) <- DecodeBytes buf next ;;
      Ok (next, fun g => mkGroup (pg_RawDense g) (pg_Dense g) (pg_Ways g) (pg_RawWays g)
                                 (pg_Relations g) (pg_RawRelations g ++ [vis b]))
    else
      '(b, next) <- DecodeBytes buf next ;;
      r <- ReadRelation b Relation0 ;;
      Ok (next, fun g => mkGroup (pg_RawDense g) (pg_Dense g) (pg_Ways g) (pg_RawWays g)
                                 (opt_append (pg_Relations g) r) (pg_RawRelations g))
  else if id =? MakeIdType primitiveGroupChangeSets PbFixedBytes then
    next <- SkipBytes buf next ;;
    Ok (next, fun g => g)
  else Panic (PanicMsg "PrimitiveGroup: Unknown").

Definition ReadPrimitiveGroup (pbr : PBReader) (buf : slice) (g : PrimitiveGroup)
  : res PrimitiveGroup := read_msg (group_handler pbr) buf g.

(** internal/t/primitive_group.go:67-95 [PrimitiveGroup.Write]. *)
Definition PrimitiveGroup_Write (g : PrimitiveGroup) (buf : list Z) : res (list Z) :=
  buf <- match pg_Dense g with
         | Some d => Embed268435456 primitiveGroupDenseNodes (DenseNodes_Write d) buf
         | None =>
             match pg_RawDense g with
             | Some raw => Ok (EncodeIdBuffer buf primitiveGroupDenseNodes raw)
             | None => Ok buf
             end
         end ;;
  buf <- match pg_Ways g with
         | Some ws =>
             foldm (fun buf w => Embed16384 primitiveGroupWays (Way_Write w) buf) ws buf
         | None =>
             foldm (fun buf w => Ok (EncodeIdBuffer buf primitiveGroupWays w))
                   (pg_RawWays g) buf
         end ;;
  match pg_Relations g with
  | Some rs =>
      foldm (fun buf r => Embed2097152 primitiveGroupRelations (Relation_Write r) buf) rs buf
  | None =>
      foldm (fun buf r => Ok (EncodeIdBuffer buf primitiveGroupRelations r))
            (pg_RawRelations g) buf
  end.

(** ** string_table.go *)

Definition stringTableS := 1.

(** internal/t/string_table.go:17-27 [ReadStringTable]; a string is its bytes. *)
Definition st_handler : handler (list (list Z)) := fun id buf next =>
  if id =? MakeIdType stringTableS PbFixedBytes then
    '(s, next) <- DecodeString buf next ;;
    Ok (next, fun st => st ++ [s])
  else Panic (PanicMsg "StringTable: Unknown").

Definition ReadStringTable (buf : slice) (st : list (list Z)) : res (list (list Z)) :=
  read_msg st_handler buf st.

(** internal/t/string_table.go:29-34 [StringTable.Write]. *)
Definition StringTable_Write (st : list (list Z)) (buf : list Z) : res (list Z) :=
  foldm (fun buf s => Ok (EncodeIdBuffer buf stringTableS s)) st buf.

(** ** primitive_block.go *)

(** internal/t/primitive_block.go:9-17 [PrimitiveBlock]. *)
Record PrimitiveBlock : Type := mkBlock
  { pblk_StringTableRaw : option (list Z);
    pblk_StringTable : option (list (list Z));
    pblk_PrimitiveGroup : list PrimitiveGroup;
    pblk_Granularity : Z;
    pblk_DateGranularity : Z;
    pblk_LatOffset : Z;
    pblk_LonOffset : Z }.
Definition PrimitiveBlock0 : PrimitiveBlock := mkBlock None None [] 0 0 0 0.

(** internal/t/primitive_block.go:19-26 *)
Definition primitiveBlockStringTable := 1. Definition primitiveBlockPrimitiveGroup := 2.
Definition primitiveBlockGranularity := 17. Definition primitiveBlockDateGranularity := 18.
Definition primitiveBlockLatOffset := 19. Definition primitiveBlockLonOffset := 20.

(** internal/t/primitive_block.go:32-57, the switch of [ReadPrimitiveBlock]. *)
Definition block_handler (pbr : PBReader) : handler PrimitiveBlock := fun id buf next =>
  if id =? MakeIdType primitiveBlockStringTable PbFixedBytes then
    if SkipStringTable pbr then
      '(b, next) <- DecodeBytes buf next ;;
      Ok (next, fun p => mkBlock (Some (vis b)) (pblk_StringTable p) (pblk_PrimitiveGroup p)
            (pblk_Granularity p) (pblk_DateGranularity p) (pblk_LatOffset p) (pblk_LonOffset p))
    else
      '(b, next) <- DecodeBytes buf next ;;
      st <- ReadStringTable b [] ;;
      Ok (next, fun p => mkBlock (pblk_StringTableRaw p) (Some st) (pblk_PrimitiveGroup p)
            (pblk_Granularity p) (pblk_DateGranularity p) (pblk_LatOffset p) (pblk_LonOffset p))
  else if id =? MakeIdType primitiveBlockPrimitiveGroup PbFixedBytes then
    '(b, next) <- DecodeBytes buf next ;;
    g <- ReadPrimitiveGroup pbr b PrimitiveGroup0 ;;
    Ok (next, fun p => mkBlock (pblk_StringTableRaw p) (pblk_StringTable p)
          (pblk_PrimitiveGroup p ++ [g])
          (pblk_Granularity p) (pblk_DateGranularity p) (pblk_LatOffset p) (pblk_LonOffset p))
  else if id =? MakeIdType primitiveBlockGranularity PbVarInt then
    '(v, next) <- DecodeI32 buf next ;;
    Ok (next, fun p => mkBlock (pblk_StringTableRaw p) (pblk_StringTable p)
          (pblk_PrimitiveGroup p)
          v (pblk_DateGranularity p) (pblk_LatOffset p) (pblk_LonOffset p))
  else if id =? MakeIdType primitiveBlockDateGranularity PbVarInt then
    '(v, next) <- DecodeI32 buf next ;;
    Ok (next, fun p => mkBlock (pblk_StringTableRaw p) (pblk_StringTable p)
          (pblk_PrimitiveGroup p)
          (pblk_Granularity p) v (pblk_LatOffset p) (pblk_LonOffset p))
  else if id =? MakeIdType primitiveBlockLatOffset PbVarInt then
    '(v, next) <- DecodeI64 buf next ;;
    Ok (next, fun p => mkBlock (pblk_StringTableRaw p) (pblk_StringTable p)
          (pblk_PrimitiveGroup p)
          (pblk_Granularity p) (pblk_DateGranularity p) v (pblk_LonOffset p))
  else if id =? MakeIdType primitiveBlockLonOffset PbVarInt then
    '(v, next) <- DecodeI64 buf next ;;
    Ok (next, fun p => mkBlock (pblk_StringTableRaw p) (pblk_StringTable p)
          (pblk_PrimitiveGroup p)
          (pblk_Granularity p) (pblk_DateGranularity p) (pblk_LatOffset p) v)
  else Panic (PanicMsg "PrimitiveBlock: Unknown").

(** internal/t/primitive_block.go:28-58 [ReadPrimitiveBlock]. *)
Definition ReadPrimitiveBlock (pbr : PBReader) (buf : slice) (p : PrimitiveBlock)
  : res PrimitiveBlock :=
  read_msg (block_handler pbr) buf
    (mkBlock (pblk_StringTableRaw p) (pblk_StringTable p) (pblk_PrimitiveGroup p)
             100 1000 (pblk_LatOffset p) (pblk_LonOffset p)).

(** internal/t/primitive_block.go:60-83 [PrimitiveBlock.Write]. *)
Definition PrimitiveBlock_Write (p : PrimitiveBlock) (buf : list Z) : res (list Z) :=
  buf <- match pblk_StringTable p with
         | Some st => Embed268435456 primitiveBlockStringTable (StringTable_Write st) buf
         | None =>
             match pblk_StringTableRaw p with
             | Some raw => Ok (EncodeIdBuffer buf primitiveBlockStringTable raw)
             | None => Ok buf
             end
         end ;;
  buf <- foldm (fun buf g =>
                  Embed268435456 primitiveBlockPrimitiveGroup (PrimitiveGroup_Write g) buf)
               (pblk_PrimitiveGroup p) buf ;;
  let buf := if negb (pblk_Granularity p =? 100)
             then EncodeIdVarInt buf primitiveBlockGranularity (u64 (pblk_Granularity p))
             else buf in
  let buf := if negb (pblk_DateGranularity p =? 1000)
             then EncodeIdVarInt buf primitiveBlockDateGranularity (u64 (pblk_DateGranularity p))
             else buf in
  let buf := if negb (pblk_LatOffset p =? 0)
             then EncodeIdVarInt buf primitiveBlockLatOffset (u64 (pblk_LatOffset p))
             else buf in
  let buf := if negb (pblk_LonOffset p =? 0)
             then EncodeIdVarInt buf primitiveBlockLonOffset (u64 (pblk_LonOffset p))
             else buf in
  Ok buf.

(** ** blob.go, blob_header.go *)

(** internal/t/blob.go:18-24 [Blob].  [Raw] keeps its capacity: it is handed to
    the block reader by [GetRawData]. *)
Record Blob : Type := mkBlob
  { blob_Raw : option slice; blob_RawSize : option Z; blob_ZLibData : option (list Z);
    blob_RawFunc : option Embedder }.
Definition Blob0 : Blob := mkBlob None None None None.

(** internal/t/blob.go:12-16 *)
Definition blobRaw := 1. Definition blobRawSize := 2. Definition blobZLibData := 3.

(** internal/t/blob.go:27-41 [ReadBlob]; pb.DecodeI32Opt is internal/pb/32.go:100-103. *)
Definition blob_handler : handler Blob := fun id buf next =>
  if id =? MakeIdType blobRaw PbFixedBytes then
    '(b, next) <- DecodeBytes buf next ;;
    Ok (next, fun bl => mkBlob (Some b) (blob_RawSize bl) (blob_ZLibData bl) (blob_RawFunc bl))
  else if id =? MakeIdType blobRawSize PbVarInt then
    '(v, next) <- DecodeI32 buf next ;;
    Ok (next, fun bl => mkBlob (blob_Raw bl) (Some v) (blob_ZLibData bl) (blob_RawFunc bl))
  else if id =? MakeIdType blobZLibData PbFixedBytes then
    '(b, next) <- DecodeBytes buf next ;;
    Ok (next, fun bl => mkBlob (blob_Raw bl) (blob_RawSize bl) (Some (vis b)) (blob_RawFunc bl))
  else Panic (PanicMsg "Blob: Unknown").

Definition ReadBlob (buf : slice) (b : Blob) : res Blob := read_msg blob_handler buf b.

(** internal/t/blob.go:43-57 [Blob.Write]. *)
Definition Blob_Write (b : Blob) (buf : list Z) : res (list Z) :=
  buf <- match blob_RawFunc b with
         | Some f => Embed268435456 blobRaw f buf
         | None =>
             match blob_Raw b with
             | Some raw =>
                 if 0 <? slen raw then Ok (EncodeIdBuffer buf blobRaw (vis raw)) else Ok buf
             | None => Ok buf
             end
         end ;;
  let buf := match blob_RawSize b with
             | Some n => EncodeIdVarInt buf blobRawSize (u64 n)
             | None => buf
             end in
  match blob_ZLibData b with
  | Some z => if 0 <? zlen z then Ok (EncodeIdBuffer buf blobZLibData z) else Ok buf
  | None => Ok buf
  end.

(** internal/t/blob_header.go:9-12 [BlobHeader]. *)
Record BlobHeader : Type := mkBlobHeader { bh_Type : list Z; bh_DataSize : Z }.
Definition BlobHeader0 : BlobHeader := mkBlobHeader [] 0.

Definition blobHeaderType := 1. Definition blobHeaderDataSize := 3.

(** internal/t/blob_header.go:19-33 [ReadBlobHeader]. *)
Definition bh_handler : handler BlobHeader := fun id buf next =>
  if id =? MakeIdType blobHeaderType PbFixedBytes then
    '(s, next) <- DecodeString buf next ;;
    Ok (next, fun bh => mkBlobHeader s (bh_DataSize bh))
  else if id =? MakeIdType blobHeaderDataSize PbVarInt then
    '(v, next) <- DecodeI32 buf next ;;
    Ok (next, fun bh => mkBlobHeader (bh_Type bh) v)
  else Panic (PanicMsg "BlobHeader: Unknown").

Definition ReadBlobHeader (buf : slice) : res BlobHeader :=
  read_msg bh_handler buf BlobHeader0.

(** internal/t/blob_header.go:35-43 [BlobHeader.Write]. *)
Definition BlobHeader_Write (bh : BlobHeader) (buf : list Z) : list Z :=
  let buf := if negb (zlen (bh_Type bh) =? 0)
             then EncodeIdBuffer buf blobHeaderType (bh_Type bh) else buf in
  if negb (bh_DataSize bh =? 0)
  then EncodeIdVarInt buf blobHeaderDataSize (u64 (bh_DataSize bh)) else buf.
