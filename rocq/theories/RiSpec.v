(** * RiSpec: what a relation index lists. *)
From Verif Require Import Base PbSpec TModel HLModel FrModel ZlModel IoModel IoSpec NiModel RwModel WiModel WiSpec RiModel.

(** ** Input *)
(** The ids of the members that are ways, in order. *)
Definition way_members (r : Relation) : list Z :=
  map fst (filter (fun m => snd m =? 1) (combine (rel_MemIDs r) (rel_MemberType r))).
(** The relations of a block: id and way members. *)
Definition block_relations (p : PrimitiveBlock) : list Relation :=
  flat_map (fun g => match pg_Relations g with None => [] | Some rs => rs end) (pblk_PrimitiveGroup p).
(** A block of the input file, decompressed in [env], with relations [rs]. *)
Definition relations_block (eb : zenv * Block) (rs : list Relation) : Prop :=
  (blk_Type (snd eb) <> bytes_of "OSMData" /\ blk_Type (snd eb) <> bytes_of "RelationData" /\ rs = []) \/
  (blk_Type (snd eb) = bytes_of "OSMData" /\
   exists b raw p, ReadBlob (blk_Data (snd eb)) Blob0 = Ok b /\ GetRawData (fst eb) b = Ok raw /\
     ReadPrimitiveBlock (mkReader false true true false) raw PrimitiveBlock0 = Ok p /\ rs = block_relations p).
(** As many member types as members, less than 2^63 of them, and way ids that are positive int64s. *)
Definition relation_ok (r : Relation) : Prop :=
  List.length (rel_MemIDs r) = List.length (rel_MemberType r) /\ zlen (rel_MemIDs r) < 2^63 /\ Forall (fun id => 0 < id < 2^63) (way_members r).

(** ** Output *)
(** The listing of relations (id, ways): id, number of ways, and for each way its id, the
    number of its locations, and these. *)
Definition listing (locations : Z -> list Z) (rels : list (Z * list Z)) : list Z :=
  flat_map (fun rel => fst rel :: zlen (snd rel) ::
                       flat_map (fun w => w :: zlen (locations w) :: locations w) (snd rel)) rels.
(** What is listed of a relation; an id is written as an int64. *)
Definition summary (r : Relation) : Z * list Z := (s64 (rel_ID r), way_members r).

(** The locations of a way in an index whose entries have the locations [L], if only the
    entries that satisfy [p] count; none if there is no such entry. *)
Definition locations_in (es : list entry) (L : entry -> list Z) (p : entry -> bool) (id : Z) : list Z :=
  match find (fun e => (e_id e =? id) && p e) es with
  | Some e => L e
  | None => []
  end.
(** What the way index has for a way: what is kept of its refs; nothing if there is no such way. *)
Definition way_locs (ways : list (Z * list Z)) (id : Z) : list Z :=
  match find (fun w => fst w =? id) ways with Some w => kept 0 (snd w) | None => [] end.
