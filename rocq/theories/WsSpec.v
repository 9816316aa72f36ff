(** * WsSpec: the OSM PBF file format, as osmformat.proto and fileformat.proto define it.

    An independent reading of the protobuf encoding and of the two schema files; only the records
    that hold the data ([Way], [Relation], ...) are taken from the model. *)
From Verif Require Import Base PbSpec TModel TSpec.

(** ** The protobuf encoding *)

(** [bs] is a varint of value [v]; it need not be the shortest. *)
Definition varint_of (v : Z) (bs : list Z) : Prop :=
  is_varint bs /\ (List.length bs <= 10)%nat /\ leb_value bs = v /\ v < 2^64.

(** A field of a message: a varint (wire type 0) or length-delimited bytes (wire type 2). *)
Inductive pbfield : Type :=
| PV (num : Z) (key value : list Z)
| PB (num : Z) (key len payload : list Z).
Definition pb_ok (f : pbfield) : Prop :=
  match f with
  | PV n key v => 1 <= n < 2^29 /\ varint_of (8 * n + 0) key /\ varint_of (leb_value v) v
  | PB n key len p => 1 <= n < 2^29 /\ varint_of (8 * n + 2) key /\ varint_of (zlen p) len /\ bytes p
  end.
Definition pb_wire (f : pbfield) : list Z :=
  match f with PV _ key v => key ++ v | PB _ key len p => key ++ len ++ p end.
(** The bytes [p] are the message with the fields [fs], in this order. *)
Definition message (p : list Z) (fs : list pbfield) : Prop := p = concat (map pb_wire fs) /\ Forall pb_ok fs.

(** The occurrences of field [n], in order. *)
Definition varints (n : Z) (fs : list pbfield) : list (list Z) :=
  concat (map (fun f => match f with PV m _ v => if m =? n then [v] else [] | PB _ _ _ _ => [] end) fs).
Definition chunks (n : Z) (fs : list pbfield) : list (list Z) :=
  concat (map (fun f => match f with PV _ _ _ => [] | PB m _ _ p => if m =? n then [p] else [] end) fs).
Definition occurs (n : Z) (fs : list pbfield) : Z :=
  zlen (filter (fun f => match f with PV m _ _ => m =? n | PB m _ _ _ => m =? n end) fs).

(** Scalar types: the varint value [u] stands for [x]. *)
Definition int64_of (u x : Z) : Prop := is_s64 x /\ u = x mod 2^64.
Definition int32_of (u x : Z) : Prop := is_s32 x /\ u mod 2^32 = x mod 2^32.
Definition uint32_of (u x : Z) : Prop := x = u mod 2^32.
Definition uint64_of (u x : Z) : Prop := x = u.
Definition sint64_of (u x : Z) : Prop := u = zigzag x.

(** An optional scalar field: the last occurrence counts. *)
Definition scalar (type : Z -> Z -> Prop) (default : Z) (n : Z) (fs : list pbfield) (x : Z) : Prop :=
  match last_of (varints n fs) with
  | None => x = default
  | Some v => type (leb_value v) x
  end.

(** A repeated scalar field: its elements are the varints of all its occurrences, packed or
    not, one after the other. *)
Definition elements (n : Z) (fs : list pbfield) : list Z :=
  concat (map (fun f => match f with PV m _ v => if m =? n then v else [] | PB m _ _ p => if m =? n then p else [] end) fs).
Definition sequence_of (us : list Z) (p : list Z) : Prop :=
  exists vs, p = concat vs /\ Forall2 varint_of us vs.
Definition repeated (type : Z -> Z -> Prop) (n : Z) (fs : list pbfield) (xs : list Z) : Prop :=
  exists us, sequence_of us (elements n fs) /\ Forall2 type us xs.

(** "DELTA coded": each element is the difference to the one before, in 64-bit arithmetic. *)
Fixpoint sums (last : Z) (ds : list Z) : list Z :=
  match ds with [] => [] | d :: r => s64 (last + d) :: sums (s64 (last + d)) r end.
Definition delta_coded (n : Z) (fs : list pbfield) (xs : list Z) : Prop :=
  exists us ds, sequence_of us (elements n fs) /\ Forall2 sint64_of us ds /\ xs = sums 0 ds.

(** ** The messages of osmformat.proto

    message Way { required int64 id = 1; repeated uint32 keys = 2 [packed]; repeated uint32
    vals = 3 [packed]; optional Info info = 4; repeated sint64 refs = 8 [packed, DELTA] } *)
Definition way_of (fs : list pbfield) (w : Way) : Prop :=
  scalar int64_of 0 1 fs (way_ID w) /\ repeated uint32_of 2 fs (way_Keys w) /\
  repeated uint32_of 3 fs (way_Vals w) /\ delta_coded 8 fs (way_Refs w).

(** message Relation { required int64 id = 1; keys = 2; vals = 3; info = 4; repeated int32
    roles_sid = 8 [packed]; repeated sint64 memids = 9 [packed, DELTA]; repeated MemberType
    types = 10 [packed] } *)
Definition relation_of (fs : list pbfield) (r : Relation) : Prop :=
  scalar int64_of 0 1 fs (rel_ID r) /\ repeated uint32_of 2 fs (rel_Keys r) /\
  repeated uint32_of 3 fs (rel_Vals r) /\ repeated int32_of 8 fs (rel_RolesSID r) /\
  delta_coded 9 fs (rel_MemIDs r) /\ repeated uint64_of 10 fs (rel_MemberType r).

(** message DenseNodes { repeated sint64 id = 1 [packed, DELTA]; optional DenseInfo = 5;
    repeated sint64 lat = 8 [packed, DELTA]; lon = 9 [packed, DELTA]; repeated int32
    keys_vals = 10 [packed] } *)
Definition dense_of (fs : list pbfield) (d : DenseNodes) : Prop :=
  delta_coded 1 fs (dn_Id d) /\ delta_coded 8 fs (dn_Lat d) /\ delta_coded 9 fs (dn_Lon d) /\
  repeated int32_of 10 fs (dn_KeyVals d).

(** message StringTable { repeated bytes s = 1; } *)
Definition strings_of (fs : list pbfield) (st : list (list Z)) : Prop := st = chunks 1 fs.

(** ** The forms of these messages that are considered

    Only the listed fields (varint and length-delimited), and of the fields in [once] at most
    one occurrence.  Protobuf allows more: unknown fields, packed fields cut into several pieces or not packed. *)
Definition plain (vs bs once : list Z) (fs : list pbfield) : Prop :=
  Forall (fun f => match f with PV n _ _ => In n vs | PB n _ _ _ => In n bs end) fs /\
  Forall (fun n => occurs n fs <= 1) once.

Definition way_msg (p : list Z) (w : Way) : Prop :=
  exists fs, message p fs /\ plain [1] [2; 3; 4; 8] [2; 3; 8] fs /\ way_of fs w.
Definition relation_msg (p : list Z) (r : Relation) : Prop :=
  exists fs, message p fs /\ plain [1] [2; 3; 4; 8; 9; 10] [2; 3; 8; 9; 10] fs /\ relation_of fs r.
Definition dense_msg (p : list Z) (d : DenseNodes) : Prop :=
  exists fs, message p fs /\ plain [] [1; 5; 8; 9; 10] [1; 8; 9; 10] fs /\ dense_of fs d.
Definition strings_msg (p : list Z) (st : list (list Z)) : Prop :=
  exists fs, message p fs /\ plain [] [1] [] fs /\ strings_of fs st.

Definition opt_list {A} (o : option A) : list A := match o with Some a => [a] | None => [] end.

(** message PrimitiveGroup { repeated Node nodes = 1; optional DenseNodes dense = 2; repeated
    Way ways = 3; repeated Relation relations = 4; repeated ChangeSet changesets = 5; }.  A
    section that the reader is told to skip is kept as its bytes. *)
Definition group_of (pbr : PBReader) (fs : list pbfield) (g : PrimitiveGroup) : Prop :=
  (if SkipDenseNodes pbr then pg_Dense g = None /\ opt_list (pg_RawDense g) = chunks 2 fs
   else pg_RawDense g = None /\ Forall2 dense_msg (chunks 2 fs) (opt_list (pg_Dense g))) /\
  (if SkipWays pbr then pg_Ways g = None /\ pg_RawWays g = chunks 3 fs
   else pg_RawWays g = [] /\ Forall2 way_msg (chunks 3 fs) (elems (pg_Ways g))) /\
  (if SkipRelations pbr then pg_Relations g = None /\ pg_RawRelations g = chunks 4 fs
   else pg_RawRelations g = [] /\ Forall2 relation_msg (chunks 4 fs) (elems (pg_Relations g))).
Definition group_msg (pbr : PBReader) (p : list Z) (g : PrimitiveGroup) : Prop :=
  exists fs, message p fs /\ plain [] [2; 3; 4; 5] [2] fs /\ group_of pbr fs g.

(** message PrimitiveBlock { required StringTable stringtable = 1; repeated PrimitiveGroup
    primitivegroup = 2; optional int32 granularity = 17 [default = 100]; optional int64
    lat_offset = 19 [default = 0]; lon_offset = 20 [default = 0]; optional int32
    date_granularity = 18 [default = 1000]; } *)
Definition block_of (pbr : PBReader) (fs : list pbfield) (b : PrimitiveBlock) : Prop :=
  (if SkipStringTable pbr then pblk_StringTable b = None /\ opt_list (pblk_StringTableRaw b) = chunks 1 fs
   else pblk_StringTableRaw b = None /\ Forall2 strings_msg (chunks 1 fs) (opt_list (pblk_StringTable b))) /\
  Forall2 (group_msg pbr) (chunks 2 fs) (pblk_PrimitiveGroup b) /\
  scalar int32_of 100 17 fs (pblk_Granularity b) /\ scalar int32_of 1000 18 fs (pblk_DateGranularity b) /\
  scalar int64_of 0 19 fs (pblk_LatOffset b) /\ scalar int64_of 0 20 fs (pblk_LonOffset b).
Definition block_msg (pbr : PBReader) (p : list Z) (b : PrimitiveBlock) : Prop :=
  exists fs, message p fs /\ plain [17; 18; 19; 20] [1; 2] [1] fs /\ block_of pbr fs b.

(** ** The messages of fileformat.proto

    message Blob { optional bytes raw = 1; optional int32 raw_size = 2; optional bytes
    zlib_data = 3; } and three obsolete or unused compressions *)
Definition blob_of (fs : list pbfield) (raw : option (list Z)) (size : option Z) (zlib : option (list Z)) : Prop :=
  last_of (chunks 1 fs) = raw /\ last_of (chunks 3 fs) = zlib /\
  match last_of (varints 2 fs), size with
  | None, None => True
  | Some v, Some n => int32_of (leb_value v) n
  | _, _ => False
  end.
Definition blob_msg (p : list Z) (raw : option (list Z)) (size : option Z) (zlib : option (list Z)) : Prop :=
  exists fs, message p fs /\ plain [2] [1; 3] [] fs /\ blob_of fs raw size zlib.

(** message BlobHeader { required string type = 1; optional bytes indexdata = 2; required
    int32 datasize = 3; } *)
Definition header_of (fs : list pbfield) (h : BlobHeader) : Prop :=
  bh_Type h = match last_of (chunks 1 fs) with Some s => s | None => [] end /\
  scalar int32_of 0 3 fs (bh_DataSize h).
Definition header_msg (p : list Z) (h : BlobHeader) : Prop :=
  exists fs, message p fs /\ plain [3] [1] [] fs /\ header_of fs h.
