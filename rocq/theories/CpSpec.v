(** * CpSpec: readers that keep to the extent of each nested message. *)
From Verif Require Import Base PbModel PbSpec TModel TSpec.

(** A message is sound when it consists of items whose inner lengths are covered by bytes
    of the message; it overruns when sound items are followed by one last field that
    claims more bytes than the message has left. *)
Definition sound (v : list Z) : Prop := exists items, v = concat (map item_bytes items) /\ Forall item_wf items.
Definition overruns (v : list Z) : Prop := exists items key len rest,
  v = concat (map item_bytes items) ++ key ++ len ++ rest /\ Forall item_wf items /\
  is_varint key /\ is_varint len /\ zlen rest < leb_value len.
(** Some message nested in [v], or [v] itself, overruns. *)
Inductive overrun_in (v : list Z) : Prop :=
| over_here : overruns v -> overrun_in v
| over_within items key len p : v = concat (map item_bytes items) -> Forall item_wf items ->
    In (IBytes key len p) items -> overrun_in p -> overrun_in v.

(** The group and block readers (primitive_group.go:30-65, primitive_block.go:28-58) with
    one change: every nested message is handed over with nothing behind it.  This is what
    the readers would be if the slices were cut as buf[a:b:b]. *)
Definition iso_group_handler (pbr : PBReader) : handler PrimitiveGroup := fun id buf next =>
  if id =? MakeIdType primitiveGroupNodes PbFixedBytes then
    Panic (PanicMsg "non-dense nodes not supported")
  else if id =? MakeIdType primitiveGroupDenseNodes PbFixedBytes then
    if SkipDenseNodes pbr then
      '(b, next) <- DecodeBytes buf next ;;
      Ok (next, fun g => mkGroup (Some (vis b)) (pg_Dense g) (pg_Ways g) (pg_RawWays g)
                                 (pg_Relations g) (pg_RawRelations g))
    else
      '(b, next) <- DecodeBytes buf next ;;
      d <- ReadDenseNodes (exact (vis b)) DenseNodes0 ;;
      Ok (next, fun g => mkGroup (pg_RawDense g) (Some d) (pg_Ways g) (pg_RawWays g)
                                 (pg_Relations g) (pg_RawRelations g))
  else if id =? MakeIdType primitiveGroupWays PbFixedBytes then
    if SkipWays pbr then
      '(b, next) <- DecodeBytes buf next ;;
      Ok (next, fun g => mkGroup (pg_RawDense g) (pg_Dense g) (pg_Ways g)
                                 (pg_RawWays g ++ [vis b])
                                 (pg_Relations g) (pg_RawRelations g))
    else
      '(b, next) <- DecodeBytes buf next ;;
      w <- ReadWay (exact (vis b)) Way0 ;;
      Ok (next, fun g => mkGroup (pg_RawDense g) (pg_Dense g) (opt_append (pg_Ways g) w)
                                 (pg_RawWays g) (pg_Relations g) (pg_RawRelations g))
  else if id =? MakeIdType primitiveGroupRelations PbFixedBytes then
    if SkipRelations pbr then
      '(b, next) <- DecodeBytes buf next ;;
      Ok (next, fun g => mkGroup (pg_RawDense g) (pg_Dense g) (pg_Ways g) (pg_RawWays g)
                                 (pg_Relations g) (pg_RawRelations g ++ [vis b]))
    else
      '(b, next) <- DecodeBytes buf next ;;
      r <- ReadRelation (exact (vis b)) Relation0 ;;
      Ok (next, fun g => mkGroup (pg_RawDense g) (pg_Dense g) (pg_Ways g) (pg_RawWays g)
                                 (opt_append (pg_Relations g) r) (pg_RawRelations g))
  else if id =? MakeIdType primitiveGroupChangeSets PbFixedBytes then
    next <- SkipBytes buf next ;;
    Ok (next, fun g => g)
  else Panic (PanicMsg "PrimitiveGroup: Unknown").

Definition iso_ReadPrimitiveGroup (pbr : PBReader) (buf : slice) (g : PrimitiveGroup)
  : res PrimitiveGroup := read_msg (iso_group_handler pbr) buf g.

Definition iso_block_handler (pbr : PBReader) : handler PrimitiveBlock := fun id buf next =>
  if id =? MakeIdType primitiveBlockStringTable PbFixedBytes then
    if SkipStringTable pbr then
      '(b, next) <- DecodeBytes buf next ;;
      Ok (next, fun p => mkBlock (Some (vis b)) (pblk_StringTable p) (pblk_PrimitiveGroup p)
            (pblk_Granularity p) (pblk_DateGranularity p) (pblk_LatOffset p) (pblk_LonOffset p))
    else
      '(b, next) <- DecodeBytes buf next ;;
      st <- ReadStringTable (exact (vis b)) [] ;;
      Ok (next, fun p => mkBlock (pblk_StringTableRaw p) (Some st) (pblk_PrimitiveGroup p)
            (pblk_Granularity p) (pblk_DateGranularity p) (pblk_LatOffset p) (pblk_LonOffset p))
  else if id =? MakeIdType primitiveBlockPrimitiveGroup PbFixedBytes then
    '(b, next) <- DecodeBytes buf next ;;
    g <- iso_ReadPrimitiveGroup pbr (exact (vis b)) PrimitiveGroup0 ;;
    Ok (next, fun p => mkBlock (pblk_StringTableRaw p) (pblk_StringTable p)
          (pblk_PrimitiveGroup p ++ [g])
          (pblk_Granularity p) (pblk_DateGranularity p) (pblk_LatOffset p) (pblk_LonOffset p))
  else if id =? MakeIdType primitiveBlockGranularity PbVarInt then
    '(v, next) <- DecodeI32 buf next ;;
    Ok (next, fun p => mkBlock (pblk_StringTableRaw p) (pblk_StringTable p)
          (pblk_PrimitiveGroup p)
          v (pblk_DateGranularity p) (pblk_LatOffset p) (pblk_LonOffset p))
  else if id =? MakeIdType primitiveBlockDateGranularity PbVarInt then
    '(v, next) <- DecodeI32 buf next ;;
    Ok (next, fun p => mkBlock (pblk_StringTableRaw p) (pblk_StringTable p)
          (pblk_PrimitiveGroup p)
          (pblk_Granularity p) v (pblk_LatOffset p) (pblk_LonOffset p))
  else if id =? MakeIdType primitiveBlockLatOffset PbVarInt then
    '(v, next) <- DecodeI64 buf next ;;
    Ok (next, fun p => mkBlock (pblk_StringTableRaw p) (pblk_StringTable p)
          (pblk_PrimitiveGroup p)
          (pblk_Granularity p) (pblk_DateGranularity p) v (pblk_LonOffset p))
  else if id =? MakeIdType primitiveBlockLonOffset PbVarInt then
    '(v, next) <- DecodeI64 buf next ;;
    Ok (next, fun p => mkBlock (pblk_StringTableRaw p) (pblk_StringTable p)
          (pblk_PrimitiveGroup p)
          (pblk_Granularity p) (pblk_DateGranularity p) (pblk_LatOffset p) v)
  else Panic (PanicMsg "PrimitiveBlock: Unknown").

Definition iso_ReadPrimitiveBlock (pbr : PBReader) (buf : slice) (p : PrimitiveBlock)
  : res PrimitiveBlock :=
  read_msg (iso_block_handler pbr) buf
    (mkBlock (pblk_StringTableRaw p) (pblk_StringTable p) (pblk_PrimitiveGroup p)
             100 1000 (pblk_LatOffset p) (pblk_LonOffset p)).

