(** * TSpec: what it means for two messages to carry the same data. *)
From Verif Require Import Base TModel PbSpec.

(** Values fit their Go types. *)
Definition way_typed (w : Way) : Prop :=
  is_s64 (way_ID w) /\ Forall is_u32 (way_Keys w) /\ Forall is_u32 (way_Vals w) /\
  Forall is_s64 (way_Refs w).
Definition relation_typed (r : Relation) : Prop :=
  is_s64 (rel_ID r) /\ Forall is_u32 (rel_Keys r) /\ Forall is_u32 (rel_Vals r) /\
  Forall is_s32 (rel_RolesSID r) /\ Forall is_s64 (rel_MemIDs r) /\
  Forall is_u64 (rel_MemberType r).
Definition dense_typed (d : DenseNodes) : Prop :=
  Forall is_s64 (dn_Id d) /\ Forall is_s64 (dn_Lat d) /\ Forall is_s64 (dn_Lon d) /\
  Forall is_s32 (dn_KeyVals d).
Definition group_typed (g : PrimitiveGroup) : Prop :=
  (forall d, pg_Dense g = Some d -> dense_typed d) /\
  (forall b, pg_RawDense g = Some b -> bytes b) /\
  (forall ws, pg_Ways g = Some ws -> Forall way_typed ws) /\
  Forall bytes (pg_RawWays g) /\
  (forall rs, pg_Relations g = Some rs -> Forall relation_typed rs) /\
  Forall bytes (pg_RawRelations g).
Definition block_typed (p : PrimitiveBlock) : Prop :=
  (forall st, pblk_StringTable p = Some st -> Forall bytes st) /\
  (forall b, pblk_StringTableRaw p = Some b -> bytes b) /\
  Forall group_typed (pblk_PrimitiveGroup p) /\
  is_s32 (pblk_Granularity p) /\ is_s32 (pblk_DateGranularity p) /\
  is_s64 (pblk_LatOffset p) /\ is_s64 (pblk_LonOffset p).

(** A nil slice and an empty slice hold the same elements. *)
Definition elems {A} (o : option (list A)) : list A :=
  match o with Some l => l | None => [] end.

(** Same data: the lookup caches are not part of the data, and a nil slice is the
    same as an empty one. *)
Definition same_dense (d d' : DenseNodes) : Prop :=
  dn_Id d' = dn_Id d /\ dn_Lat d' = dn_Lat d /\ dn_Lon d' = dn_Lon d /\
  dn_KeyVals d' = dn_KeyVals d.
Definition same_group (g g' : PrimitiveGroup) : Prop :=
  pg_RawDense g' = pg_RawDense g /\
  match pg_Dense g, pg_Dense g' with
  | Some d, Some d' => same_dense d d'
  | None, None => True
  | _, _ => False
  end /\
  elems (pg_Ways g') = elems (pg_Ways g) /\ pg_RawWays g' = pg_RawWays g /\
  elems (pg_Relations g') = elems (pg_Relations g) /\ pg_RawRelations g' = pg_RawRelations g.
Definition same_block (p p' : PrimitiveBlock) : Prop :=
  pblk_StringTableRaw p' = pblk_StringTableRaw p /\
  pblk_StringTable p' = pblk_StringTable p /\
  Forall2 same_group (pblk_PrimitiveGroup p) (pblk_PrimitiveGroup p') /\
  pblk_Granularity p' = pblk_Granularity p /\
  pblk_DateGranularity p' = pblk_DateGranularity p /\
  pblk_LatOffset p' = pblk_LatOffset p /\ pblk_LonOffset p' = pblk_LonOffset p.

(** A message holds each section in the form (raw or parsed) the reader produces. *)
Definition group_form (pbr : PBReader) (g : PrimitiveGroup) : Prop :=
  (if SkipDenseNodes pbr then pg_Dense g = None else pg_RawDense g = None) /\
  (if SkipWays pbr then pg_Ways g = None else pg_RawWays g = []) /\
  (if SkipRelations pbr then pg_Relations g = None else pg_RawRelations g = []).
Definition block_form (pbr : PBReader) (p : PrimitiveBlock) : Prop :=
  (if SkipStringTable pbr then pblk_StringTable p = None else pblk_StringTableRaw p = None) /\
  Forall (group_form pbr) (pblk_PrimitiveGroup p).

(** A length-delimited field: number, the varint carrying the length, payload.
    Any varint with the right value is accepted, canonical or not. *)
Record field : Type := mkField { f_id : Z; f_len : list Z; f_payload : list Z }.
Definition field_wf (f : field) : Prop :=
  is_varint (f_len f) /\ (List.length (f_len f) <= 10)%nat /\
  leb_value (f_len f) = zlen (f_payload f).
(** key of field [id] with wire type 2, for ids below 16 (one byte) *)
Definition field_bytes (f : field) : list Z :=
  (8 * f_id f + 2) :: f_len f ++ f_payload f.

(** payloads of the fields with number [id], in order *)
Definition payloads (id : Z) (fs : list field) : list (list Z) :=
  map f_payload (filter (fun f => f_id f =? id) fs).
Definition last_of {A} (l : list A) : option A :=
  match rev l with [] => None | p :: _ => Some p end.
Definition last_payload (id : Z) (fs : list field) : option (list Z) := last_of (payloads id fs).

(** The bytes of a sequence of fields. *)
Definition fields_bytes (fs : list field) : list Z := concat (map field_bytes fs).
Definition fields_wf (fs : list field) : Prop :=
  Forall field_wf fs /\ Forall (fun f => 1 <= f_id f < 16) fs.

(** The sections of a group that [pbr] skips are byte for byte the same in both:
    the dense section (the last one counts, as in protobuf), each way, each relation. *)
Definition raw_preserved (pbr : PBReader) (fs fs' : list field) : Prop :=
  (SkipDenseNodes pbr = true -> last_payload 2 fs' = last_payload 2 fs) /\
  (SkipWays pbr = true -> payloads 3 fs' = payloads 3 fs) /\
  (SkipRelations pbr = true -> payloads 4 fs' = payloads 4 fs).

(** A block is a sequence of length-delimited fields (ids below 16) and varint fields
    (ids 16 to 31, two-byte key). *)
Inductive bitem : Type := BF (f : field) | BV (id : Z) (value : list Z).
Definition bitem_bytes (i : bitem) : list Z :=
  match i with
  | BF f => field_bytes f
  | BV id v => (8 * id) mod 128 + 128 :: (8 * id) / 128 :: v
  end.
Definition bitem_wf (i : bitem) : Prop :=
  match i with
  | BF f => field_wf f /\ 1 <= f_id f < 16
  | BV id v => 16 <= id < 32 /\ is_varint v /\ (List.length v <= 10)%nat
  end.
Definition bfields (l : list bitem) : list field :=
  concat (map (fun i => match i with BF f => [f] | BV _ _ => [] end) l).
Definition block_bytes_of (l : list bitem) : list Z := concat (map bitem_bytes l).

(** Same blob: nil and empty byte strings are the same, the generator function is
    not part of the data. *)
Definition raw_bytes (o : option slice) : list Z :=
  match o with Some s => vis s | None => [] end.

(** The key/value array of a dense group: per node its tags as key, value, ...,
    then the delimiter 0. *)
Fixpoint flat (tags : list (Z * Z)) : list Z :=
  match tags with [] => [] | (k, v) :: r => k :: v :: flat r end.
Fixpoint dense_array (nodes : list (list (Z * Z))) : list Z :=
  match nodes with [] => [] | tags :: r => flat tags ++ 0 :: dense_array r end.
(** string table indexes: keys positive, values not negative *)
Definition tag_ok (t : Z * Z) : Prop := 0 < fst t < 2^31 /\ 0 <= snd t < 2^31.

(** No varint of value 2^63 or more occurs anywhere in the bytes (such a value is a
    negative Go int when used as a length). *)
Definition no_huge (l : list Z) : Prop :=
  forall pre bs post, l = pre ++ bs ++ post -> is_varint bs -> (List.length bs <= 10)%nat ->
    leb_value bs < 2^63.

(** An item of a message: a varint field or a length-delimited field, under any key.
    In a well-formed item the declared length is the number of bytes carried. *)
Inductive item : Type :=
| IVarint (key : list Z) (value : list Z)
| IBytes (key : list Z) (len : list Z) (payload : list Z).
Definition item_wf (i : item) : Prop :=
  match i with
  | IVarint k v => is_varint k /\ is_varint v
  | IBytes k l p => is_varint k /\ is_varint l /\ leb_value l = zlen p
  end.
Definition item_bytes (i : item) : list Z :=
  match i with IVarint k v => k ++ v | IBytes k l p => k ++ l ++ p end.
